(** Properties C24-C30, C52, C53: the client.  [csteps tr (init hn) ls s]: an execution of the client's goroutines with
    labels ls, under any schedule, any callers and any behaviour of the server; tr: a Trace function is set;
    hn: there is a connection. *)
From Verif Require Import Base GoBuf CodecPrim Types Codec Msgs CodecSpec StubPrim Server ServerSpec Rpc ServerWitness Client ClientSpec
  ClientLemmas ClientLemmas2 ClientLemmas3 ClientLemmas4 ClientLemmas5 ClientLemmas6 ClientLemmas7 ClientWitness.
Local Opaque NumTags all_tags.

(** * C24 *)
Theorem C24_tags_unique : forall tr hn ls s c c' t t', csteps tr (init hn) ls s ->
  holds s c t -> holds s c' t' ->
  (c <> c' -> t <> t') /\ (c = c' -> t = t') /\ 1 <= t <= 65534 /\ ~ In t (tags s) /\ ~ In t (user s).
Proof.
  exact (fun tr hn ls s c c' t t' R H H' => let I := inv_steps tr hn ls s R in
    conj (fun N E => N (holds_unique s c c' t I H (eq_ind_r (holds s c') H' E)))
      (conj (fun E => holds_one s c t t' I H (eq_ind_r (fun x => holds s x t') H' E)) (holds_good s c t I H))).
Qed.
Print Assumptions C24_tags_unique.
Example C24_case : exists s, csteps true (init true) (firstn 6 one_call) s /\ holds s 0%nat 1.
Proof. exact first_call_writes. Qed.

(** * C25 *)
(** [answered h]: which call was answered how by the server.  The reply bytes a call returns are those the server made
    for this call's request bytes (with the tag filled in); there is no other answer to it. *)
Theorem C25_right_caller : forall srv h c q r, answers_with_tag srv -> hreach true srv h -> callers (cl h) c = CDone q r ->
  exists t, good_tag t /\ srv (set_tag t q) r /\ In (c, (set_tag t q, r)) (answered h) /\
    (forall x, In (c, x) (answered h) -> x = (set_tag t q, r)).
Proof. exact right_caller. Qed.
Print Assumptions C25_right_caller.
(** And the client does not crash. *)
Theorem C25_no_crash : forall srv h, answers_with_tag srv -> hreach true srv h -> crashed (cl h) = false.
Proof. exact honest_no_crash. Qed.
Print Assumptions C25_no_crash.
Example C25_case : exists h, hreach true (answered_by (counting false)) h /\ callers (cl h) 0%nat = CDone q0 b1.
Proof. exact honest_call. Qed.

(** * C26 *)
(** n calls, each of which may wait for earlier ones before it starts; every schedule takes at most 12 n steps, and
    as long as a call is not done some step is possible (n may be larger than the number of tags). *)
Theorem C26_calls_complete : forall srv n pre k h,
  answers_with_tag srv -> (forall q, (7 <= List.length q)%nat -> exists a, srv q a) -> (forall c p, In p (pre c) -> (p < c)%nat) ->
  wsteps srv n pre k h ->
  (k <= 12 * n)%nat /\ ((forall h', ~ wstep srv n pre h h') -> k = (12 * n)%nat /\ forall c, (c < n)%nat -> done h c).
Proof.
  exact (fun srv n pre k h HS HT HP W =>
    let '(conj KK E) := wsteps_K srv HS n pre k h W in
    conj (finish_bound n k h E) (fun NS => finish_done srv n pre k h HT HP KK E NS)).
Qed.
Print Assumptions C26_calls_complete.
Example C26_case : (* a hundred thousand calls, one after the other, and an echo server *)
  answers_with_tag echo /\ (forall q, (7 <= List.length q)%nat -> exists a, echo q a) /\ (forall c p, In p (chain c) -> (p < c)%nat) /\
  forall h, wsteps echo (N.to_nat 100000) chain 0 h -> exists h', wstep echo (N.to_nat 100000) chain h h'.
Proof. exact c26_case. Qed.

(** * C27: false after 2^32 - 3 fids *)
Theorem C27_fid_sequence : forall tr hn ls s k, csteps tr (init hn) ls s -> (k < List.length (fids s))%nat ->
  nth_error (fids s) k = Some ((N.of_nat k + 2) mod 4294967296).
Proof. exact fid_sequence. Qed.
Print Assumptions C27_fid_sequence.
Theorem C27_fids_distinct_partial : forall tr hn ls s, csteps tr (init hn) ls s -> N.of_nat (List.length (fids s)) <= 4294967293 ->
  NoDup (fids s) /\ ~ In NOFID (fids s).
Proof. exact fids_distinct. Qed.
Print Assumptions C27_fids_distinct_partial.
Theorem C27_nofid_refuted : ~ (forall tr hn ls s, csteps tr (init hn) ls s -> ~ In NOFID (fids s)).
Proof. exact fids_nofid. Qed.
Print Assumptions C27_nofid_refuted.
Theorem C27_reuse_refuted : ~ (forall tr hn ls s, csteps tr (init hn) ls s -> NoDup (fids s)).
Proof. exact fids_repeat. Qed.
Print Assumptions C27_reuse_refuted.
Example C27_case : forall k, exists ls s, csteps true (init true) ls s /\ crashed s = false /\ List.length (fids s) = k.
Proof. exact (fids_run true true). Qed.

(** * C28 *)
Theorem C28_lost_connection_refuted : ~ (forall tr ls s, csteps tr (init true) ls s -> In LEof ls -> crashed s = false).
Proof. exact lost_refuted. Qed.
Print Assumptions C28_lost_connection_refuted.
(** After the end of the connection the process dies within four steps, or (after a hostile reply) hangs for ever. *)
Theorem C28_crash_or_hang : forall tr hn ls s, csteps tr (init hn) ls s -> crashed s = false -> In LEof ls ->
  exists ls' s', csteps tr s ls' s' /\ (crashed s' = true \/ wedged s') /\ (List.length ls' <= 4)%nat /\ (forall b, ~ In (LRead b) ls').
Proof. exact closed_crashes. Qed.
Print Assumptions C28_crash_or_hang.
(** Without a connection calls hang. *)
Theorem C28_no_connection_hangs : forall tr ls s, csteps tr (init false) ls s -> forall c q r, callers s c <> CDone q r.
Proof. exact (fun tr ls s H => proj2 (proj2 (nonet_inv tr ls s H))). Qed.
Print Assumptions C28_no_connection_hangs.
(** What is left: no reply is made up; a call returns only bytes that were read before the connection ended. *)
Theorem C28_no_invented_reply_partial : forall tr hn ls s, csteps tr (init hn) ls s ->
  (forall c q r, callers s c = CDone q r -> In (LRead r) ls) /\ (In LEof ls -> forall b s', ~ cstep tr s (LRead b) s').
Proof. exact no_invented. Qed.
Print Assumptions C28_no_invented_reply_partial.
Example C28_case : exists s, csteps true (init true) one_call s /\ callers s 0%nat = CDone q0 b1.
Proof. exact c28_case. Qed.

(** * C29 *)
(** A reply to no request crashes the client. *)
Theorem C29_hostile_crash_refuted : ~ (forall ls s, csteps true (init true) ls s -> ~ In LEof ls -> ~ In LFatal ls -> crashed s = false).
Proof. exact hostile_refuted. Qed.
Print Assumptions C29_hostile_crash_refuted.
(** A repeated reply blocks it: a waiting call that nothing can complete any more. *)
Theorem C29_hostile_wedge_refuted :
  ~ (forall ls s c q, csteps true (init true) ls s -> crashed s = false -> callers s c = CWait q ->
       exists ls' s' r, csteps true s ls' s' /\ callers s' c = CDone q r).
Proof. exact wedge_refuted. Qed.
Print Assumptions C29_hostile_wedge_refuted.
Theorem C29_wedged_for_ever : forall tr hn ls s ls' s', csteps tr (init hn) ls s -> wedged s -> csteps tr s ls' s' ->
  wedged s' /\ (forall c q, callers s c = CWait q -> callers s' c = CWait q) /\ (forall c r, ~ In (LDone c r) ls').
Proof. exact (fun tr hn ls s ls' s' R => wedged_forever tr s ls' s' (inv_steps tr hn ls s R)). Qed.
Print Assumptions C29_wedged_for_ever.
(** A reply with a count larger than itself crashes the caller. *)
Theorem C29_hostile_reply_refuted : ~ (forall m bb sp, (7 <= List.length bb)%nat -> call_result m bb sp <> CallPanic).
Proof. exact hostile_reply_refuted. Qed.
Print Assumptions C29_hostile_reply_refuted.
(** Only reads and stats are affected by that. *)
Theorem C29_reply_decoding_partial : forall m bb sp,
  (7 <= List.length bb)%nat -> ttype m <> Tread_t -> ttype m <> Tstat_t -> call_result m bb sp <> CallPanic.
Proof. exact call_total. Qed.
Print Assumptions C29_reply_decoding_partial.
(** Exactly when the receiver can crash: the connection has ended, or it has found a bad packet; exactly which packets are bad:
    those with a reserved tag and those with a tag never used until the receiver looks; and then it cannot do anything but crash. *)
Theorem C29_crash_iff : forall s, crashed s = false -> ((exists s', cstep true s LCrash s') <-> rcv s = VDoomed \/ (rcv s = VWait /\ rdr s = RClosed)).
Proof. exact crash_iff. Qed.
Print Assumptions C29_crash_iff.
Theorem C29_doomed_iff : forall s, crashed s = false -> rcv s <> VDoomed ->
  ((exists l s', cstep true s l s' /\ rcv s' = VDoomed) <-> exists b, rcv s = VHave b /\ bad_tag s b).
Proof. exact doomed_iff. Qed.
Print Assumptions C29_doomed_iff.
Theorem C29_doomed_stays : forall s l s', cstep true s l s' -> rcv s = VDoomed -> rcv s' = VDoomed.
Proof. exact doomed_stays. Qed.
Print Assumptions C29_doomed_stays.
(** Whatever the server sends: a call is completed only by a packet that was read and carries the tag the call holds,
    and no other call is touched. *)
Theorem C29_one_call_partial : forall tr hn ls s c b s', csteps tr (init hn) ls s -> cstep tr s (LDone c b) s' ->
  holds s c (tag_of b) /\ In (LRead b) ls /\ (exists q, callers s c = CWait q /\ callers s' c = CDone q b) /\
  forall c', c' <> c -> callers s' c' = callers s c'.
Proof. exact done_step. Qed.
Print Assumptions C29_one_call_partial.
(** A packet with the tag of a waiting call completes this call. *)
Theorem C29_reply_accepted : forall hn ls s b c q, csteps true (init hn) ls s ->
  crashed s = false -> rdr s = RHave b -> rcv s = VWait -> callers s c = CWait q -> rpc s (tag_of b) = Some c ->
  exists s1 s2 s3, cstep true s LTau s1 /\ cstep true s1 LTau s2 /\ cstep true s2 (LDone c b) s3 /\ callers s3 c = CDone q b /\ (forall c', c' <> c -> callers s3 c' = callers s c').
Proof. exact (fun hn ls s b c q R A B C => good_reply s b c q A B C (inv_steps true hn ls s R)). Qed.
Print Assumptions C29_reply_accepted.
Example C29_case : exists s, csteps true (init true) replay s /\ crashed s = false /\ wedged s /\ callers s 1%nat = CWait q0.
Proof. exact replay_run. Qed.

(** * C30 *)
Theorem C30_tracing_refuted : ~ (forall ls s, csteps true (init true) ls s -> exists s', csteps false (init true) ls s').
Proof. exact trace_refuted. Qed.
Print Assumptions C30_tracing_refuted.
(** Without a trace function no call ever completes, ... *)
Theorem C30_untraced_never_completes : forall hn ls s, csteps false (init hn) ls s -> forall c r, ~ In (LDone c r) ls.
Proof. exact (fun hn ls s H => proj2 (untraced_inv ls s hn H)). Qed.
Print Assumptions C30_untraced_never_completes.
(** ... and the first packet the receiver gets crashes the client; everything else is the same. *)
Theorem C30_untraced_crash : forall s b, crashed s = false -> rcv s = VHave b ->
  (exists s1, cstep false s LTau s1 /\ rcv s1 = VDoomed /\ cstep false s1 LCrash (crash s1)) /\
  forall l s', cstep false s l s' -> rcv s' = VHave b \/ rcv s' = VDoomed.
Proof. exact untraced_crash. Qed.
Print Assumptions C30_untraced_crash.
Theorem C30_untraced_doomed : forall s l s', cstep false s l s' -> rcv s = VDoomed -> rcv s' = VDoomed.
Proof. exact untraced_doomed. Qed.
Print Assumptions C30_untraced_doomed.
Theorem C30_same_otherwise_partial : forall s l s',
  (forall b, rcv s <> VHave b) -> (cstep true s l s' <-> cstep false s l s').
Proof. exact trace_same. Qed.
Print Assumptions C30_same_otherwise_partial.
Example C30_case : exists s, csteps true (init true) one_call s /\ callers s 0%nat = CDone q0 b1.
Proof. exact c28_case. Qed.

(** * C52 *)
Theorem C52_client_framing_partial : forall cs fs, nonempty cs -> headers_whole cs -> strict_frames (concat cs) fs ->
  packets (map Chunk cs) = map (fun f => raw (f_type f) (f_tag f) (f_body f)) fs.
Proof. exact (fun cs fs => packets_frames _ fs cs (Nat.lt_succ_diag_r _)). Qed.
Print Assumptions C52_client_framing_partial.
Theorem C52_split_header_refuted :
  ~ (forall cs fs, nonempty cs -> strict_frames (concat cs) fs -> packets (map Chunk cs) = map (fun f => raw (f_type f) (f_tag f) (f_body f)) fs).
Proof. exact packets_split_refuted. Qed.
Print Assumptions C52_split_header_refuted.
Example C52_case : (* two replies; the body of the first is cut *)
  let s := marshalR 3 (MRread (mkRreadPkt (str "hello"))) ++ b1 in
  packets [Chunk (firstn 13 s); Chunk (skipn 13 s)] = [marshalR 3 (MRread (mkRreadPkt (str "hello"))); b1].
Proof. vm_compute. reflexivity. Qed.

(** * C53 *)
(** What a call returns to its caller is what the file server answered to this request, in some state. *)
Theorem C53_end_to_end : forall (St : Type) (ns : NineServer St) h c m bb sp,
  hreach true (answered_by ns) h -> fitsT m -> callers (cl h) c = CDone (call_request m) bb ->
  exists s s', (exists r, invoke ns s m = NSOk s' r /\ call_result m bb sp = CallRet r None) \/
    (exists err, invoke ns s m = NSErr s' err /\ call_result m bb sp = CallRet (zero_reply m) (Some err)).
Proof. exact @end_to_end. Qed.
Print Assumptions C53_end_to_end.
Example C53_case : q0 = call_request (MTclunk (mkTclunkPkt 5)) /\
  exists h, hreach true (answered_by (counting false)) h /\ callers (cl h) 0%nat = CDone q0 b1.
Proof. split; [reflexivity|exact honest_call]. Qed.
