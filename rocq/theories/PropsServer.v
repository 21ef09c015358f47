(** Properties C14-C22: the server side of a connection.  [ns] is any implementation of the file-server
    interface over any state type, [e] any environment (memory behind buffers, write failures). *)
From Verif Require Import Base GoBuf CodecPrim Types Codec Msgs CodecSpec StubPrim Stubs Server ServerSpec Rpc ServerWitness
  ServerLemmas ServerLemmas2 ServerLemmas3 ServerLemmas4 ServerLemmas5.

(** * C14 *)
(** Whatever arrives, and whatever fails: what is written are the replies to the first frames, in order. *)
Theorem C14_replies_in_order : forall (St : Type) (ns : NineServer St) e i st evs,
  exists fs fs', frames_of (received evs) (fs ++ fs') /\ replies fs (r_out (serve_from ns e i st evs)).
Proof. exact (fun St ns e i st evs => @serve_frames St ns e _ evs i st (Nat.lt_succ_diag_r _)). Qed.
Print Assumptions C14_replies_in_order.
(** If headers arrive unbroken, nothing crashes and no write fails, every frame is answered. *)
Theorem C14_every_request_answered : forall (St : Type) (ns : NineServer St) e i st cs fs,
  (forall j, e_write e j = None) -> nonempty cs -> headers_whole cs -> frames_of (concat cs) fs ->
  r_crashed (serve_from ns e i st (map Chunk cs)) = false ->
  Forall2 reply_to fs (r_out (serve_from ns e i st (map Chunk cs))).
Proof. exact (fun St ns e i st cs fs H => @all_frames St ns e H _ cs i st fs (Nat.lt_succ_diag_r _)). Qed.
Print Assumptions C14_every_request_answered.
(** The replies can be cut apart again by their own size fields and carry the tags of the requests. *)
Theorem C14_replies_are_frames : forall fs outs,
  Forall2 reply_to fs outs -> Forall (fun f => f_tag f < 65536) fs -> Forall (fun o => blen o < 4294967296) outs ->
  exists gs, frames_of (concat outs) gs /\
    Forall2 (fun f g => f_tag g = f_tag f /\ (f_type g = f_type f + 1 \/ f_type g = 107)) fs gs.
Proof. exact replies_frames. Qed.
Print Assumptions C14_replies_are_frames.
(** Sequences of well-formed requests: exactly the answers of the file server, one after the other. *)
Theorem C14_wellformed_requests : forall (St : Type) (ns : NineServer St) e,
  (forall j, e_write e j = None) -> forall reqs cs i v s,
  Forall ok_req reqs -> nonempty cs -> headers_whole cs -> concat cs = flat_map enc_req reqs ->
  match answers ns v s reqs with
  | Some (reps, (v', s')) =>
      serve_from ns e i (mkSrv v s) (map Chunk cs)
      = mkRun (map (fun x => marshalR (fst x) (snd x)) reps) false (mkSrv v' s')
  | None => r_crashed (serve_from ns e i (mkSrv v s) (map Chunk cs)) = true
  end.
Proof. exact @serve_requests. Qed.
Print Assumptions C14_wellformed_requests.
Example C14_case : (* version, walk, an unknown type, in chunks that cut bodies but not headers *)
  let reqs := [(9, MTversion (mkTversionPkt 8192 (str "9P2000"))); (10, MTwalk (mkTwalkPkt 1 2 [str "a"; str "bc"]))] in
  let s := flat_map enc_req reqs ++ raw 200 11 (str "x") in
  let cs := [firstn 8 s; skipn 8 (firstn 30 s); skipn 30 s] in
  concat cs = s /\
  serve (counting false) quiet 0 (map Chunk cs)
  = mkRun [marshalR 9 (MRversion (mkRversionPkt 8 (str "9P2000")));
           marshalR 10 (MRwalk (mkRwalkPkt [mkQID 0 0 7; mkQID 0 0 7]));
           marshalR 11 (MRerror (mkRerrorPkt (str "Dispatch:  not supported")))] false (mkSrv true 2).
Proof. split; vm_compute; reflexivity. Qed.

(** * C15 *)
Theorem C15_reply_kind : forall (St : Type) (ns : NineServer St) e i st ty tag body,
  ty < 256 -> tag < 65536 -> 7 + blen body < 4294967296 -> e_write e i = None ->
  let r := serve_from ns e i st [Chunk (raw ty tag body)] in
  r_crashed r = true \/
  exists m, r_out r = [marshalR tag m] /\ (In ty request_types /\ rtype m = ty + 1 \/ rtype m = 107).
Proof. exact @reply_kind. Qed.
Print Assumptions C15_reply_kind.
Theorem C15_unknown_types : forall (St : Type) (ns : NineServer St) e i s ty tag body,
  ty < 256 -> tag < 65536 -> 7 + blen body < 4294967296 -> e_write e i = None -> ~ In ty request_types ->
  serve_from ns e i (mkSrv true s) [Chunk (raw ty tag body)]
  = mkRun [marshalR tag (MRerror (mkRerrorPkt (str "Dispatch: " ++ RPCNames ty ++ str " not supported")))] false (mkSrv true s).
Proof. exact @unknown_type. Qed.
Print Assumptions C15_unknown_types.
Example C15_case : ~ In 102 request_types /\ RPCNames 101 = str "Rversion" /\ In 126 request_types.
Proof. repeat split; [cbn; intuition discriminate|cbn; tauto]. Qed.

(** * C16 *)
Theorem C16_nothing_before_version : forall (St : Type) (ns : NineServer St) e s,
  (forall j, e_write e j = None) -> forall cs i fs1 fs2,
  nonempty cs -> headers_whole cs ->
  frames_of (concat cs) (fs1 ++ fs2) -> Forall (fun f => f_type f <> 100) fs1 ->
  exists cs', nonempty cs' /\ headers_whole cs' /\ frames_of (concat cs') fs2 /\
    serve_from ns e i (mkSrv false s) (map Chunk cs)
    = let r := serve_from ns e (i + List.length fs1) (mkSrv false s) (map Chunk cs') in
      mkRun (map refusal fs1 ++ r_out r) (r_crashed r) (r_st r).
Proof. exact (fun St ns e s H cs i fs1 fs2 => @before_version St ns e s H _ cs i fs1 fs2 (Nat.lt_succ_diag_r _)). Qed.
Print Assumptions C16_nothing_before_version.
Example C16_case : (* a clunk and a write with a lying count, before the version request *)
  serve (counting false) quiet 0
    [Chunk (enc_req (3, MTclunk (mkTclunkPkt 5)) ++ raw 118 4 (le 4 5 ++ le 8 0 ++ le 4 100000)
            ++ enc_req (5, MTversion (mkTversionPkt 8192 (str "9P2000"))))]
  = mkRun [refusal (mkFrame 120 3 []); refusal (mkFrame 118 4 []); marshalR 5 (MRversion (mkRversionPkt 8 (str "9P2000")))]
          false (mkSrv true 1).
Proof. vm_compute. reflexivity. Qed.

(** * C17 *)
Theorem C17_failed_version_refuted :
  ~ (forall (St : Type) (ns : NineServer St) e s s1 err t1 t2 m1 m2,
       (forall i, e_write e i = None) -> ok_req (t1, m1) -> ok_req (t2, m2) ->
       is_version m1 = true -> is_version m2 = false -> invoke ns s m1 = NSErr s1 err ->
       NS (r_st (serve ns e s [Chunk (enc_req (t1, m1) ++ enc_req (t2, m2))])) = s1).
Proof. exact c17_refuted. Qed.
Print Assumptions C17_failed_version_refuted.
(** What the code does instead: any version request, accepted or not, opens the session. *)
Theorem C17_any_version_opens : forall (St : Type) (ns : NineServer St) e i v s t m,
  ok_req (t, m) -> e_write e i = None -> is_version m = true -> invoke ns s m <> NSPanic ->
  Versioned (r_st (serve_from ns e i (mkSrv v s) [Chunk (enc_req (t, m))])) = true.
Proof. exact @c17_opens. Qed.
Print Assumptions C17_any_version_opens.
(** What is left of the property: without any version request everything is refused. *)
Theorem C17_no_version_no_session_partial : forall (St : Type) (ns : NineServer St) e s,
  (forall j, e_write e j = None) -> forall cs i fs,
  nonempty cs -> headers_whole cs -> frames_of (concat cs) fs -> Forall (fun f => f_type f <> 100) fs ->
  serve_from ns e i (mkSrv false s) (map Chunk cs) = mkRun (map refusal fs) false (mkSrv false s).
Proof.
  exact (fun St ns e s H cs i fs N W F V => no_version ns e s H cs i fs N W F V).
Qed.
Print Assumptions C17_no_version_no_session_partial.
Example C17_case : (* the counting server refuses the version, yet the clunk reaches it *)
  serve (counting true) quiet 0
    [Chunk (enc_req (3, MTversion (mkTversionPkt 8192 (str "9P3000"))) ++ enc_req (4, MTclunk (mkTclunkPkt 5)))]
  = mkRun [marshalR 3 (MRerror (mkRerrorPkt (str "no"))); marshalR 4 (MRclunk mkRclunkPkt)] false (mkSrv true 2).
Proof. vm_compute. reflexivity. Qed.

(** * C18 *)
Theorem C18_malformed_refuted :
  ~ (forall (St : Type) (ns : NineServer St) e i s ty tag body m t' rest err,
       e_write e i = None -> ty < 256 -> tag < 65536 -> 7 + blen body < 4294967296 ->
       unmarshalT ty (Buf (le 2 tag ++ body) (e_spare e i)) = Some (URet m t' rest (Some err)) ->
       NS (r_st (serve_from ns e i (mkSrv true s) [Chunk (raw ty tag body)])) = s).
Proof. exact c18_refuted. Qed.
Print Assumptions C18_malformed_refuted.
(** What the code does: the decoding error is ignored, the method is called with whatever was decoded. *)
Theorem C18_decoding_errors_ignored : forall (St : Type) (ns : NineServer St) e i s ty tag body m t' rest err,
  e_write e i = None -> ty < 256 -> tag < 65536 -> 7 + blen body < 4294967296 ->
  unmarshalT ty (Buf (le 2 tag ++ body) (e_spare e i)) = Some (URet m t' rest err) ->
  serve_from ns e i (mkSrv true s) [Chunk (raw ty tag body)] =
  match invoke ns s m with
  | NSOk s r => mkRun [marshalR tag r] false (mkSrv true s)
  | NSErr s e => mkRun [marshalR tag (MRerror (mkRerrorPkt e))] false (mkSrv true s)
  | NSPanic => mkRun [] true (mkSrv true s)
  end.
Proof. exact @c18_exact. Qed.
Print Assumptions C18_decoding_errors_ignored.
(** What is left: messages of unknown type have no effect. *)
Theorem C18_unknown_type_no_effect_partial : forall (St : Type) (ns : NineServer St) e i s ty tag body,
  ty < 256 -> tag < 65536 -> 7 + blen body < 4294967296 -> e_write e i = None -> ~ In ty request_types ->
  exists err, serve_from ns e i (mkSrv true s) [Chunk (raw ty tag body)]
              = mkRun [marshalR tag (MRerror (mkRerrorPkt err))] false (mkSrv true s).
Proof. exact (fun St ns e i s ty tag body a b c d f => ex_intro _ _ (unknown_type ns e i s ty tag body a b c d f)). Qed.
Print Assumptions C18_unknown_type_no_effect_partial.
Example C18_case : (* an empty remove request: removes fid 0 *)
  unmarshalT 122 (Buf (le 2 3 ++ []) []) = Some (URet (MTremove (mkTremovePkt 0)) 3 (Buf [] []) (Some (str "pkt too short for uint32: need 4, have 0"))) /\
  r_st (serve_from (counting false) quiet 0 (mkSrv true 0) [Chunk (raw 122 3 [])]) = mkSrv true 1.
Proof. split; vm_compute; reflexivity. Qed.

(** * C19 *)
Theorem C19_segmentation_refuted :
  ~ (forall (St : Type) (ns : NineServer St) e s cs1 cs2,
       nonempty cs1 -> nonempty cs2 -> concat cs1 = concat cs2 ->
       serve ns e s (map Chunk cs1) = serve ns e s (map Chunk cs2)).
Proof. exact c19_refuted. Qed.
Print Assumptions C19_segmentation_refuted.
(** True as long as no cut falls inside a 7-byte header. *)
Theorem C19_segmentation_partial : forall (St : Type) (ns : NineServer St) e i st cs1 cs2,
  nonempty cs1 -> nonempty cs2 -> headers_whole cs1 -> headers_whole cs2 -> concat cs1 = concat cs2 ->
  serve_from ns e i st (map Chunk cs1) = serve_from ns e i st (map Chunk cs2).
Proof. exact (fun St ns e i st cs1 cs2 => @segmentation St ns e _ cs1 cs2 i st (Nat.lt_succ_diag_r _)). Qed.
Print Assumptions C19_segmentation_partial.
Example C19_case : (* one chunk always qualifies; a header split after three bytes ends the connection *)
  let v := enc_req (1, MTversion (mkTversionPkt 8192 (str "9P2000"))) in
  headers_whole [v] /\
  serve (counting false) quiet 0 [Chunk (firstn 3 v); Chunk (skipn 3 v)] = mkRun [] false (mkSrv false 0) /\
  List.length (r_out (serve (counting false) quiet 0 [Chunk v])) = 1%nat.
Proof. split; [apply whole_single|split; vm_compute; reflexivity]. Qed.

(** * C20 *)
Theorem C20_crash_refuted :
  ~ (forall (St : Type) (ns : NineServer St) e s evs,
       (forall s m, invoke ns s m <> NSPanic) -> (forall i, 512 <= blen (e_spare e i)) ->
       r_crashed (serve ns e s evs) = false).
Proof. exact c20_refuted. Qed.
Print Assumptions C20_crash_refuted.
(** The only cause: the decoder of a Twrite or Twstat (see C09 for when exactly it crashes). *)
Theorem C20_crash_cause : forall (St : Type) (ns : NineServer St) e,
  (forall s m, invoke ns s m <> NSPanic) -> forall evs i st fs,
  frames_of (received evs) fs -> r_crashed (serve_from ns e i st evs) = true ->
  exists k f, nth_error fs k = Some f /\ (f_type f = 118 \/ f_type f = 126) /\
    unmarshalT (f_type f) (Buf (le 2 (f_tag f) ++ f_body f) (e_spare e (i + k))) = Some UPanic.
Proof. exact (fun St ns e H evs i st fs => @crash_cause St ns e H _ evs i st fs (Nat.lt_succ_diag_r _)). Qed.
Print Assumptions C20_crash_cause.
(** So a client whose writes and wstats are well formed, and which may otherwise send anything, never crashes it. *)
Theorem C20_no_crash_partial : forall (St : Type) (ns : NineServer St) e s evs fs,
  (forall s m, invoke ns s m <> NSPanic) -> frames_of (received evs) fs ->
  (forall f, In f fs -> f_type f = 118 \/ f_type f = 126 ->
     exists m, fitsT m /\ wireT m = (f_type f, snd (wireT m)) /\ f_body f = concat (snd (wireT m))) ->
  r_crashed (serve ns e s evs) = false.
Proof. exact @c20_honest. Qed.
Print Assumptions C20_no_crash_partial.
Example C20_case :
  (forall s m, invoke (counting false) s m <> NSPanic) /\
  r_crashed (serve (counting false) quiet 0
    [Chunk (enc_req (1, MTversion (mkTversionPkt 8192 (str "9P2000"))) ++ raw 118 2 (le 4 5 ++ le 8 0 ++ le 4 517 ++ str "data"))]) = true /\
  r_crashed (serve (counting false) quiet 0
    [Chunk (enc_req (1, MTversion (mkTversionPkt 8192 (str "9P2000"))) ++ raw 118 2 (le 4 5 ++ le 8 0 ++ le 4 516 ++ str "data"))]) = false.
Proof. split; [apply counting_total|split; vm_compute; reflexivity]. Qed.

(** * C21 *)
Theorem C21_undersized_refuted :
  ~ (forall (St : Type) (ns : NineServer St) e s cs,
       nonempty cs -> headers_whole cs ->
       exists fs rest, frames_of (concat cs) (fs ++ rest) /\ replies fs (r_out (serve ns e s (map Chunk cs))) /\
       exists bs bs', concat cs = bs ++ bs' /\ strict_frames bs fs).
Proof. exact c21_undersized_refuted. Qed.
Print Assumptions C21_undersized_refuted.
Theorem C21_truncated_refuted :
  ~ (forall (St : Type) (ns : NineServer St) e i s size ty tag body,
       e_write e i = None -> 7 <= size < 4294967296 -> ty < 256 -> tag < 65536 -> blen body < size - 7 ->
       NS (r_st (serve_from ns e i (mkSrv true s) [Chunk (le 4 size ++ le 1 ty ++ le 2 tag ++ body)])) = s).
Proof. exact c21_truncated_refuted. Qed.
Print Assumptions C21_truncated_refuted.
Theorem C21_msize_refuted :
  ~ (forall (St : Type) (ns : NineServer St) e s s1 msize ver t1 m1 t2 m2,
       (forall i, e_write e i = None) -> ok_req (t1, m1) -> ok_req (t2, m2) ->
       is_version m1 = true -> is_version m2 = false ->
       invoke ns s m1 = NSOk s1 (MRversion (mkRversionPkt msize ver)) ->
       msize < blen (enc_req (t2, m2)) ->
       NS (r_st (serve ns e s [Chunk (enc_req (t1, m1) ++ enc_req (t2, m2))])) = s1).
Proof. exact c21_msize_refuted. Qed.
Print Assumptions C21_msize_refuted.
(** What is left: on a stream of complete messages with honest sizes, the size fields are respected:
    the messages answered are exactly those. *)
Theorem C21_honest_sizes_partial : forall (St : Type) (ns : NineServer St) e i st cs fs,
  (forall j, e_write e j = None) -> nonempty cs -> headers_whole cs -> strict_frames (concat cs) fs ->
  r_crashed (serve_from ns e i st (map Chunk cs)) = false ->
  Forall2 reply_to fs (r_out (serve_from ns e i st (map Chunk cs))).
Proof. exact @c21_strict. Qed.
Print Assumptions C21_honest_sizes_partial.
Example C21_case : strict_frames (raw 120 7 (le 4 5) ++ raw 200 8 []) [mkFrame 120 7 (le 4 5); mkFrame 200 8 []].
Proof.
  apply (sf_cons 11 120 7 (le 4 5) (raw 200 8 []) [mkFrame 200 8 []]); try (split || idtac; vm_compute; congruence).
  apply (sf_cons 7 200 8 [] [] []); try (split || idtac; vm_compute; congruence). constructor.
Qed.

(** * C22 *)
(** [set_tag t (call_request m)] are the bytes the client writes for the call m under tag t, the run is what the
    server makes of them, and [call_result m o] is what the call returns for the reply bytes o. *)
Theorem C22_rpc_transparent : forall (St : Type) (ns : NineServer St) e i v s t m sp,
  fitsT m -> t < 65536 -> blen (call_request m) < 4294967296 -> e_write e i = None -> v = true \/ is_version m = true ->
  let r := serve_from ns e i (mkSrv v s) [Chunk (set_tag t (call_request m))] in
  match invoke ns s m with
  | NSOk s' ret => fitsR ret -> exists o, r = mkRun [o] false (mkSrv true s') /\ call_result m o sp = CallRet ret None
  | NSErr s' err => short err -> exists o, r = mkRun [o] false (mkSrv true s') /\ call_result m o sp = CallRet (zero_reply m) (Some err)
  | NSPanic => r_crashed r = true
  end.
Proof. exact @rpc_transparent. Qed.
Print Assumptions C22_rpc_transparent.
Example C22_case :
  fitsT (MTwrite (mkTwritePkt 3 1000000000000 (str "hello"))) /\
  call_result (MTread (mkTreadPkt 3 0 2))
    (hd [] (r_out (serve_from (counting false) quiet 0 (mkSrv true 0) [Chunk (set_tag 513 (call_request (MTread (mkTreadPkt 3 0 2))))]))) []
  = CallRet (MRread (mkRreadPkt [x68; x69])) None.
Proof. split; [cbn; repeat split; reflexivity|vm_compute; reflexivity]. Qed.
