(** Single messages, remote calls, witnesses. *)
From Verif Require Import Base GoBuf CodecPrim Types Codec Gen GenThm GenInv Msgs GenEq CodecSpec MsgThm
  CodecLemmas CodecLemmas2 CodecLemmas3 CodecLemmas4 StubPrim Stubs Server ServerSpec ServerLemmas ServerLemmas2 ServerLemmas3 Rpc.

Lemma cut_single c p : cut_at [c] p -> p = 0%nat \/ p = List.length c.
Proof.
  intros (l1 & l2 & E & ->). destruct l1 as [|x l1]; [left; reflexivity|].
  destruct l1; [|destruct l1; discriminate]. injection E as -> _. right. cbn. rewrite app_nil_r. reflexivity.
Qed.
Lemma whole_single (c : bytes) : headers_whole [c].
Proof.
  intros o p _ Hc. cbn [concat]. rewrite app_nil_r. apply cut_single in Hc. lia.
Qed.
Lemma nonempty_single (c : bytes) : c <> [] -> nonempty [c].
Proof. intros H. constructor; [exact H|constructor]. Qed.

Lemma raw_nonempty ty tag body : raw ty tag body <> [].
Proof. unfold raw. intros H. apply (f_equal (@List.length byte)) in H. rewrite !app_length, !le_length in H. discriminate H. Qed.
Lemma serve_raw {St} (ns : NineServer St) e i st ty tag body :
  ty < 256 -> tag < 65536 -> 7 + blen body < 4294967296 -> e_write e i = None ->
  serve_from ns e i st [Chunk (raw ty tag body)]
  = match Dispatch ns st (Buf (le 2 tag ++ body) (e_spare e i)) ty with
    | SrvReply st' out => mkRun [out] false st'
    | SrvPanic => mkRun [] true st
    end.
Proof.
  intros Hty Htag Hsz Hwr.
  change [Chunk (raw ty tag body)] with (map Chunk [raw ty tag body]).
  rewrite serve_unfold.
  assert (C : concat [raw ty tag body] = raw ty tag body) by (cbn [concat]; apply app_nil_r).
  destruct (iter_chunks ns e i st [raw ty tag body]) as (size & ty' & tag' & rb & cs' & A & B & D & E & R & N' & W' & ->).
  - apply nonempty_single, raw_nonempty.
  - apply whole_single.
  - rewrite C. unfold raw. rewrite !app_length, !le_length. lia.
  - rewrite C in E. unfold raw in E. apply header_inj in E; try assumption. destruct E as (<- & <- & <- & <-).
    replace (N.to_nat (7 + blen body - 7)) with (List.length body) in * by (unfold blen; lia).
    rewrite firstn_all, skipn_all in *.
    destruct (Dispatch ns st _ ty) as [st' out|]; cbn [finish]; [|reflexivity].
    rewrite Hwr. cbv zeta.
    rewrite serve_unfold, iter_short by (rewrite stream_chunks, R; cbn; lia). reflexivity.
Qed.
Lemma serve_request {St} (ns : NineServer St) e i v s t m :
  fitsT m -> t < 65536 -> blen (marshalT t m) < 4294967296 -> e_write e i = None ->
  serve_from ns e i (mkSrv v s) [Chunk (marshalT t m)]
  = match answer ns v s m with
    | Some (v', s', r) => mkRun [marshalR t r] false (mkSrv v' s')
    | None => mkRun [] true (mkSrv v s)
    end.
Proof.
  intros Hf Ht Hl Hwr.
  pose proof (marshalM_blen t (MT m)) as L. cbn [marshalM wireM] in L.
  assert (E : marshalT t m = raw (ttype m) t (concat (snd (wireT m)))).
  { rewrite enc_req_header at 1. unfold raw. rewrite L. reflexivity. }
  rewrite E, serve_raw; try assumption; [| |lia].
  2:{ pose proof (wire_lt (MT m)) as W. cbn [wireM] in W. rewrite ttype_wire in W. exact W. }
  replace (le 2 t ++ concat (snd (wireT m))) with (skipn 5 (marshalT t m)) by (rewrite layoutT, frame_body; reflexivity).
  rewrite Dispatch_request by assumption.
  destruct (answer ns v s m) as [[[v' s'] r]|]; reflexivity.
Qed.

(** * Remote calls *)
Lemma set_tag_frame t ty fs : set_tag t (frame ty 0 fs) = frame ty t fs.
Proof.
  unfold set_tag, frame. cbn [le app firstn skipn]. 
  rewrite N.shiftr_div_pow2. change (2 ^ 8) with 256. reflexivity.
Qed.
Lemma call_request_marshal m : call_request m = marshalT 0 m.
Proof. destruct m as [[]|[]|[]|[]|[]|[]|[]|[]|[]|[]|[]|[]]; reflexivity. Qed.
Lemma set_tag_request t m : set_tag t (call_request m) = marshalT t m.
Proof. rewrite call_request_marshal, !layoutT. apply set_tag_frame. Qed.

Definition ures_call (z : rmsg) (r : option (ures rmsg)) : callres rmsg :=
  match r with
  | Some (URet r _ _ e) => CallRet r e
  | _ => CallPanic
  end.
Lemma call_result_gen m bb sp :
  call_result m bb sp =
  match nth_error bb 4 with
  | None => CallPanic
  | Some ty =>
      if b2n ty =? 107 then
        match unmarshalR 107 (Buf (skipn 5 bb) sp) with
        | Some (URet _ _ _ (Some e)) => CallRet (zero_reply m) (Some e)
        | Some (URet (MRerror p) _ _ None) => CallRet (zero_reply m) (Some (Rerror_Error p))
        | _ => CallPanic
        end
      else ures_call (zero_reply m) (unmarshalR (ttype m + 1) (Buf (skipn 5 bb) sp))
  end.
Proof.
  change (unmarshalR 107 (Buf (skipn 5 bb) sp)) with (Some (umap MRerror (UnmarshalRerrorPkt (Buf (skipn 5 bb) sp)))).
  destruct m; unfold call_result;
  [unfold CallTversion_result|unfold CallTattach_result|unfold CallTflush_result|unfold CallTwalk_result
  |unfold CallTopen_result|unfold CallTcreate_result|unfold CallTread_result|unfold CallTwrite_result
  |unfold CallTclunk_result|unfold CallTremove_result|unfold CallTstat_result|unfold CallTwstat_result];
  (destruct (nth_error bb 4) as [ty|]; [|reflexivity]; cbv zeta;
   change Rerror_t with 107; destruct (b2n ty =? 107);
   [destruct (UnmarshalRerrorPkt _) as [[] ? ? [|]|]; reflexivity|]);
  cbn [ttype];
  match goal with
  | |- context [unmarshalR ?k ?b] => let k' := eval vm_compute in k in change k with k'; unfold unmarshalR; cbn [N.eqb Pos.eqb Rversion_t Rattach_t Rerror_t Rflush_t Rwalk_t Ropen_t Rcreate_t Rread_t Rwrite_t Rclunk_t Rremove_t Rstat_t Rwstat_t]
  end;
  match goal with |- context [umap _ ?u] => destruct u; reflexivity end.
Qed.
Lemma call_of_reply m t r sp : fitsR r -> t < 65536 -> rtype r = ttype m + 1 -> rtype r <> 107 ->
  call_result m (marshalR t r) sp = CallRet r None.
Proof.
  intros Hf Ht Hty Hne. rewrite call_result_gen.
  pose proof (wire_lt (MR r)) as W. cbn [wireM] in W. rewrite rtype_wire in W.
  assert (E : nth_error (marshalR t r) 4 = Some (u8 (rtype r))) by (rewrite layoutR, rtype_wire; reflexivity).
  rewrite E, b2n_u8, N.mod_small by exact W.
  destruct (N.eqb_spec (rtype r) 107) as [?|_]; [contradiction|].
  rewrite <- Hty, roundtripR by assumption. reflexivity.
Qed.
Lemma call_of_error m t err sp : short err -> t < 65536 ->
  call_result m (marshalR t (MRerror (mkRerrorPkt err))) sp = CallRet (zero_reply m) (Some err).
Proof.
  intros Hf Ht. rewrite call_result_gen.
  assert (E : nth_error (marshalR t (MRerror (mkRerrorPkt err))) 4 = Some (u8 107)) by reflexivity.
  rewrite E, b2n_u8. change (107 mod 256 =? 107) with true. cbv iota.
  change 107 with (rtype (MRerror (mkRerrorPkt err))). rewrite roundtripR; [reflexivity| |exact Ht]. exact Hf.
Qed.
Lemma rpc_transparent {St} (ns : NineServer St) e i v s t m sp :
  fitsT m -> t < 65536 -> blen (call_request m) < 4294967296 -> e_write e i = None -> v = true \/ is_version m = true ->
  let r := serve_from ns e i (mkSrv v s) [Chunk (set_tag t (call_request m))] in
  match invoke ns s m with
  | NSOk s' ret => fitsR ret -> exists o, r = mkRun [o] false (mkSrv true s') /\ call_result m o sp = CallRet ret None
  | NSErr s' err => short err -> exists o, r = mkRun [o] false (mkSrv true s') /\ call_result m o sp = CallRet (zero_reply m) (Some err)
  | NSPanic => r_crashed r = true
  end.
Proof.
  intros Hf Ht Hl Hwr Hv. cbv zeta. rewrite set_tag_request.
  assert (Hl' : blen (marshalT t m) < 4294967296).
  { rewrite call_request_marshal in Hl. revert Hl.
    pose proof (marshalM_blen t (MT m)) as L1. pose proof (marshalM_blen 0 (MT m)) as L0.
    cbn [marshalM wireM] in *. rewrite L1, L0. exact (fun h => h). }
  rewrite serve_request by assumption. unfold answer.
  replace (v || is_version m) with true by (destruct Hv as [->| ->]; [|rewrite orb_true_r]; reflexivity).
  destruct (invoke ns s m) as [s' ret|s' err|] eqn:I.
  - intros Hr. eexists. split; [reflexivity|]. pose proof (invoke_type _ _ _ _ _ I) as T.
    apply call_of_reply; try assumption. rewrite T. destruct m; vm_compute; discriminate.
  - intros Hr. eexists. split; [reflexivity|]. apply call_of_error; assumption.
  - reflexivity.
Qed.

(** * The replies form a stream of frames *)
Lemma replies_frames fs outs : Forall2 reply_to fs outs -> Forall (fun f => f_tag f < 65536) fs ->
  Forall (fun o => blen o < 4294967296) outs ->
  exists gs, frames_of (concat outs) gs /\
    Forall2 (fun f g => f_tag g = f_tag f /\ (f_type g = f_type f + 1 \/ f_type g = 107)) fs gs.
Proof.
  induction 1 as [|f o fs outs (r & -> & Hty) _ IH]; intros Ht Hl.
  { exists []. split; [apply fr_end; cbn; lia|constructor]. }
  inversion Ht; inversion Hl; subst. destruct IH as (gs & F & G); try assumption.
  pose proof (marshalM_blen (f_tag f) (MR r)) as L. cbn [marshalM wireM] in L.
  pose proof (wire_lt (MR r)) as W. cbn [wireM] in W. rewrite rtype_wire in W.
  exists (mkFrame (rtype r) (f_tag f) (concat (snd (wireR r))) :: gs). split.
  - cbn [concat]. 
    assert (E : marshalR (f_tag f) r = le 4 (blen (marshalR (f_tag f) r)) ++ le 1 (rtype r) ++ le 2 (f_tag f) ++ concat (snd (wireR r))).
    { rewrite L, layoutR, rtype_wire. reflexivity. }
    rewrite E, <- !app_assoc.
    pose proof (fr_cons (blen (marshalR (f_tag f) r)) (rtype r) (f_tag f) (concat (snd (wireR r)) ++ concat outs) gs) as K.
    assert (Hn : N.to_nat (blen (marshalR (f_tag f) r) - 7) = List.length (concat (snd (wireR r)))) by (rewrite L; unfold blen; lia).
    rewrite Hn in K. rewrite firstn_app_le in K by lia. rewrite firstn_all in K.
    rewrite skipn_app, skipn_all, Nat.sub_diag in K. apply K; assumption.
  - constructor; [|exact G]. split; [reflexivity|exact Hty].
Qed.
Lemma frames_tags bs fs : frames_of bs fs -> Forall (fun f => f_tag f < 65536 /\ f_type f < 256) fs.
Proof. induction 1; constructor; cbn; auto. Qed.

(** * Strict framing *)
Lemma strict_frames_of bs fs : strict_frames bs fs -> frames_of bs fs.
Proof.
  induction 1 as [|size ty tag body rest fs Hs Hty Htag Hb _ IH]; [apply fr_end; cbn; lia|].
  pose proof (fr_cons size ty tag (body ++ rest) fs) as K.
  replace (N.to_nat (size - 7)) with (List.length body) in K by (rewrite <- Hb; unfold blen; lia).
  rewrite firstn_app_le in K by lia. rewrite firstn_all in K.
  rewrite skipn_app, skipn_all, Nat.sub_diag in K. apply K; try assumption. lia.
Qed.
