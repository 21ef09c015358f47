(** Lemmas about Dispatch and the serve loop. *)
From Verif Require Import Base GoBuf CodecPrim Types Codec Gen GenThm GenInv Msgs GenEq CodecSpec MsgThm
  CodecLemmas CodecLemmas2 CodecLemmas3 CodecLemmas4 StubPrim Stubs Server ServerSpec.

(** * Dispatch *)
Definition stub_result {St} (t : N) (r : nsres St rmsg) : srvres St :=
  match r with
  | NSPanic => SrvPanic
  | NSErr s e => SrvReply s (MarshalRerrorPkt t e)
  | NSOk s r => SrvReply s (marshalR t r)
  end.

Lemma dispatch_known {St} (ns : NineServer St) v s b ty : is_ttype ty = true ->
  dispatch_switch ns v s b ty =
  match unmarshalT ty b with
  | Some (URet m t _ _) => on_ns v (stub_result t (invoke ns s m))
  | _ => SrvPanic
  end.
Proof.
  revert ty. apply is_ttype_cases.
  all: match goal with |- dispatch_switch ?ns ?v ?s ?b ?t = _ =>
         let x := eval cbv [dispatch_switch N.eqb Pos.eqb Tversion_t Tattach_t Tflush_t Twalk_t Topen_t Tcreate_t Tread_t Twrite_t Tclunk_t Tremove_t Tstat_t Twstat_t] in (dispatch_switch ns v s b t) in
         change (dispatch_switch ns v s b t) with x;
         let y := eval cbv [unmarshalT N.eqb Pos.eqb Tversion_t Tattach_t Tflush_t Twalk_t Topen_t Tcreate_t Tread_t Twrite_t Tclunk_t Tremove_t Tstat_t Twstat_t] in (unmarshalT t b) in
         change (unmarshalT t b) with y end.
  all: unfold SrvRversion, SrvRattach, SrvRflush, SrvRwalk, SrvRopen, SrvRcreate, SrvRread, SrvRwrite, SrvRclunk, SrvRremove, SrvRstat, SrvRwstat.
  all: match goal with |- _ = match umap _ ?U with _ => _ end => destruct U as [p t r e|]; [|reflexivity] end.
  all: destruct p; cbn [umap invoke]; cbn -[marshalR MarshalRerrorPkt].
  all: match goal with |- context [nsmap _ ?x] => destruct x as [s' q|s' e'|] end; try reflexivity.
  all: destruct q; reflexivity.
Qed.

Lemma le2_bytes t : le 2 t = [u8 t; u8 (t / 256)].
Proof. reflexivity. Qed.
Lemma tag_of_bytes t : t < 65536 -> N.lor (b2n (u8 t)) (N.shiftl (b2n (u8 (t / 256))) 8) = t.
Proof.
  intros Ht.
  pose proof (tagint (le 2 t)) as E. unfold ub in E. cbn [nth le] in E. rewrite E.
  rewrite genint_unle by lia. change (firstn 2 [u8 t; u8 (t / 256)]) with (le 2 t). rewrite unle_le.
  apply N.mod_small. exact Ht.
Qed.
Lemma tag_of_bytes16 t : t < 65536 -> N.lor (b2n (u8 t)) (N.shiftl (b2n (u8 (t / 256))) 8 mod 65536) = t.
Proof.
  intros Ht. rewrite (N.mod_small (N.shiftl _ _)); [apply tag_of_bytes, Ht|].
  rewrite N.shiftl_mul_pow2. pose proof (b2n_lt (u8 (t / 256))). change (2 ^ 8) with 256. lia.
Qed.

Lemma dispatch_unknown {St} (ns : NineServer St) v s body sp ty t : is_ttype ty = false -> t < 65536 ->
  dispatch_switch ns v s (Buf (le 2 t ++ body) sp) ty =
  SrvReply (mkSrv v s) (marshalR t (MRerror (mkRerrorPkt (msg_not_supported ty)))).
Proof.
  intros H Ht. unfold is_ttype in H. cbn [existsb] in H.
  repeat (apply orb_false_iff in H; let A := fresh "A" in destruct H as [A H]).
  unfold dispatch_switch.
  repeat match goal with |- context [if ?a =? ?b then _ else _] =>
    let E := fresh in destruct (a =? b) eqn:E; [apply N.eqb_eq in E; subst; discriminate|] end.
  f_equal. unfold ServerError. rewrite rd_exact by (rewrite ?le_length; lia).
  rewrite tagint, genint_overlay by (try lia; exact Ht). reflexivity.
Qed.

(** The tag a request decoder reports is the one in the message. *)
Lemma unmarshalT_tag ty t body sp m t' rest e :
  t < 65536 -> unmarshalT ty (Buf (le 2 t ++ body) sp) = Some (URet m t' rest e) -> t' = t /\ ttype m = ty.
Proof.
  intros Ht H.
  assert (Hty : is_ttype ty = true).
  { revert H. unfold unmarshalT, is_ttype. cbn [existsb].
    repeat match goal with |- context [if ?c then _ else _] => destruct c eqn:?; [reflexivity|] end. discriminate. }
  destruct (unmarshalT_gen ty (Buf (le 2 t ++ body) sp) Hty) as (r & E & V & T). rewrite E in H. injection H as ->.
  split; [|exact (T _ _ _ _ eq_refl)].
  cbn [umap] in V. unfold unmarshal_pkt in V. rewrite rd_exact in V by (rewrite ?le_length; lia).
  rewrite tagint, genint_overlay in V by (try lia; exact Ht). rewrite N.mod_small in V by exact Ht.
  destruct (decs _ _ _); [destruct (0 <? _)| |]; congruence.
Qed.
Lemma invoke_type {St} (ns : NineServer St) s m s' r : invoke ns s m = NSOk s' r -> rtype r = ttype m + 1.
Proof.
  destruct m as [[]|[]|[]|[]|[]|[]|[]|[]|[]|[]|[]|[]]; cbn [invoke];
    match goal with |- nsmap _ ?x = _ -> _ => destruct x as [? q| |] end; cbn; intros H; try discriminate H;
    injection H as _ <-; reflexivity.
Qed.
Lemma MarshalRerror_R t e : MarshalRerrorPkt t e = marshalR t (MRerror (mkRerrorPkt e)).
Proof. reflexivity. Qed.

Lemma Dispatch_reply {St} (ns : NineServer St) st body sp ty t st' out :
  t < 65536 -> Dispatch ns st (Buf (le 2 t ++ body) sp) ty = SrvReply st' out ->
  exists r, out = marshalR t r /\ (rtype r = ty + 1 \/ rtype r = 107).
Proof.
  intros Ht. unfold Dispatch.
  assert (K : forall v, dispatch_switch ns v (NS st) (Buf (le 2 t ++ body) sp) ty = SrvReply st' out ->
     exists r, out = marshalR t r /\ (rtype r = ty + 1 \/ rtype r = 107)).
  { intros v. destruct (is_ttype ty) eqn:Hty.
    - rewrite dispatch_known by exact Hty.
      destruct (unmarshalT ty _) as [[m t' rest e|]|] eqn:E; try discriminate.
      apply unmarshalT_tag in E; [|exact Ht]. destruct E as [-> <-].
      destruct (invoke ns (NS st) m) as [s' r|s' e'|] eqn:I; cbn [stub_result on_ns]; intros H; try discriminate H.
      + injection H as <- <-. exists r. split; [reflexivity|]. left. eapply invoke_type, I.
      + injection H as <- <-. rewrite MarshalRerror_R. (eexists (MRerror (mkRerrorPkt _)); split; [reflexivity|right; reflexivity]).
    - rewrite dispatch_unknown by assumption. intros H. injection H as <- <-. (eexists (MRerror (mkRerrorPkt _)); split; [reflexivity|right; reflexivity]). }
  destruct (ty =? Tversion_t); [apply K|]. destruct (Versioned st); [apply K|].
  rewrite le2_bytes. cbn [unread app]. rewrite tag_of_bytes16 by exact Ht.
  intros H. injection H as <- <-. rewrite MarshalRerror_R. (eexists (MRerror (mkRerrorPkt _)); split; [reflexivity|right; reflexivity]).
Qed.

(** A well-formed request. *)
Lemma Dispatch_request {St} (ns : NineServer St) v s m t sp :
  fitsT m -> t < 65536 ->
  Dispatch ns (mkSrv v s) (Buf (skipn 5 (marshalT t m)) sp) (ttype m) =
  match answer ns v s m with
  | Some (v, s, r) => SrvReply (mkSrv v s) (marshalR t r)
  | None => SrvPanic
  end.
Proof.
  intros Hf Ht. unfold Dispatch, answer. cbn [NS Versioned].
  assert (K : dispatch_switch ns true s (Buf (skipn 5 (marshalT t m)) sp) (ttype m) =
     match match invoke ns s m with
      | NSOk s r => Some (true, s, r)
      | NSErr s e => Some (true, s, MRerror (mkRerrorPkt e))
      | NSPanic => None end with
     | Some (v, s, r) => SrvReply (mkSrv v s) (marshalR t r)
     | None => SrvPanic end).
  { rewrite dispatch_known by apply is_ttype_ttype. rewrite roundtripT by assumption.
    destruct (invoke ns s m); reflexivity. }
  destruct (ttype m =? Tversion_t) eqn:E.
  { replace (is_version m) with true by (destruct m; try discriminate E; reflexivity).
    rewrite orb_true_r. exact K. }
  replace (is_version m) with false by (destruct m; try discriminate E; reflexivity).
  rewrite orb_false_r. destruct v; [exact K|].
  rewrite layoutT, frame_body, le2_bytes. cbn [unread app]. rewrite tag_of_bytes16 by exact Ht.
  rewrite ttype_wire. reflexivity.
Qed.

(** * Reads *)
Notation stream := received.
Lemma stream_chunks cs : stream (map Chunk cs) = concat cs.
Proof. induction cs; cbn; congruence. Qed.
Lemma skipn_nil_le {A} n (l : list A) : skipn n l = [] -> (List.length l <= n)%nat.
Proof. intros H. apply (f_equal (@List.length A)) in H. rewrite skipn_length in H. cbn in H. lia. Qed.

Lemma net_read_stream n evs bs rest : net_read n evs = RdData bs rest -> stream evs = bs ++ stream rest /\ (List.length bs <= n)%nat.
Proof.
  unfold net_read. destruct evs as [|[c|] r]; intros H; try discriminate. injection H as <- <-. split.
  - cbn [received]. destruct (skipn n c) eqn:E.
    + rewrite firstn_all2 by (apply skipn_nil_le, E). reflexivity.
    + cbn [received]. rewrite <- E, app_assoc, firstn_skipn. reflexivity.
  - rewrite firstn_length. lia.
Qed.
Lemma net_read_pending n evs bs rest : net_read n evs = RdData bs rest -> pending evs = (List.length bs + pending rest)%nat.
Proof.
  unfold net_read. destruct evs as [|[c|] r]; intros H; try discriminate. injection H as <- <-.
  cbn [pending]. destruct (skipn n c) eqn:E.
  - rewrite firstn_all2 by (apply skipn_nil_le, E). reflexivity.
  - cbn [pending]. rewrite <- E, firstn_length, skipn_length. lia.
Qed.
Lemma copy_limit_stream n evs : forall bs rest, copy_limit n evs = Some (bs, rest) ->
  bs = firstn n (stream evs) /\ stream rest = skipn n (stream evs) /\ (pending rest <= pending evs)%nat.
Proof.
  revert n. induction evs as [|[c|] r IH]; intros [|n] bs rest H; cbn [copy_limit] in H.
  - injection H as <- <-. auto.
  - injection H as <- <-. auto.
  - injection H as <- <-. auto.
  - destruct (skipn (S n) c) eqn:E.
    + destruct (copy_limit (S n - List.length c) r) as [[bs' r']|] eqn:F; [|discriminate]. injection H as <- <-.
      apply IH in F. destruct F as (-> & -> & P). pose proof (skipn_nil_le _ _ E) as L.
      cbn [received]. rewrite firstn_app, skipn_app, E. rewrite (firstn_all2 c L). cbn [app].
      split; [reflexivity|]. split; [reflexivity|]. cbn [pending]. lia.
    + injection H as <- <-. cbn [received].
      assert (L : (S n < List.length c)%nat).
      { apply (f_equal (@List.length byte)) in E. rewrite skipn_length in E. cbn [List.length] in E. lia. }
      rewrite firstn_app, skipn_app, E. replace (S n - List.length c)%nat with 0%nat by lia. cbn [firstn skipn]. rewrite app_nil_r.
      split; [reflexivity|]. split; [reflexivity|]. cbn [pending]. rewrite <- E, skipn_length. lia.
  - injection H as <- <-. auto.
  - discriminate.
Qed.

(** * The loop *)
Lemma serve_iter_pending {St} (ns : NineServer St) e i st evs st' out rest :
  serve_iter ns e i st evs = INext st' out rest -> (pending rest + 7 <= pending evs)%nat.
Proof.
  unfold serve_iter. destruct (net_read 7 evs) as [| |l evs1] eqn:R; try discriminate.
  destruct l as [|l0 [|l1 [|l2 [|l3 [|l4 [|l5 [|l6 [|]]]]]]]]; try discriminate.
  destruct (copy_limit _ evs1) as [[body evs2]|] eqn:C; [|discriminate].
  destruct (Dispatch _ _ _ _); [|discriminate]. destruct (e_write e i); [discriminate|].
  intros H. injection H as <- <- <-.
  apply net_read_pending in R. apply copy_limit_stream in C. cbn [List.length] in R. lia.
Qed.
Lemma serve_n_fuel {St} (ns : NineServer St) e f1 : forall f2 i st evs,
  (pending evs < f1)%nat -> (pending evs < f2)%nat -> serve_n ns e f1 i st evs = serve_n ns e f2 i st evs.
Proof.
  induction f1 as [|f1 IH]; intros [|f2] i st evs H1 H2; try lia. cbn [serve_n].
  destruct (serve_iter ns e i st evs) as [st' out rest|st' out|] eqn:E; try reflexivity.
  apply serve_iter_pending in E. rewrite (IH f2) by lia. reflexivity.
Qed.
Lemma serve_unfold {St} (ns : NineServer St) e i st evs :
  serve_from ns e i st evs =
  match serve_iter ns e i st evs with
  | ICrash => mkRun [] true st
  | IDead st out => mkRun (match out with Some o => [o] | None => [] end) false st
  | INext st out evs =>
      let r := serve_from ns e (S i) st evs in
      mkRun (out :: r_out r) (r_crashed r) (r_st r)
  end.
Proof.
  unfold serve_from at 1. cbn [serve_n].
  destruct (serve_iter ns e i st evs) as [st' out rest|st' out|] eqn:E; try reflexivity.
  apply serve_iter_pending in E. unfold serve_from. rewrite (serve_n_fuel ns e (pending evs) (S (pending rest))) by lia. reflexivity.
Qed.

Lemma header_bytes l0 l1 l2 l3 l4 l5 l6 : exists size ty tag,
  size < 4294967296 /\ ty < 256 /\ tag < 65536 /\
  [l0; l1; l2; l3; l4; l5; l6] = le 4 size ++ le 1 ty ++ le 2 tag /\
  b2n l0 + N.shiftl (b2n l1) 8 + N.shiftl (b2n l2) 16 + N.shiftl (b2n l3) 24 = size /\ b2n l4 = ty /\ [l5; l6] = le 2 tag.
Proof.
  exists (unle [l0; l1; l2; l3]), (unle [l4]), (unle [l5; l6]).
  pose proof (unle_lt [l0; l1; l2; l3]) as A. pose proof (unle_lt [l4]) as B. pose proof (unle_lt [l5; l6]) as C.
  change (cap (List.length [l0; l1; l2; l3])) with 4294967296 in A. change (cap (List.length [l4])) with 256 in B.
  change (cap (List.length [l5; l6])) with 65536 in C.
  pose proof (le_unle [l0; l1; l2; l3] 4 eq_refl) as D1. pose proof (le_unle [l4] 1 eq_refl) as D2. pose proof (le_unle [l5; l6] 2 eq_refl) as D3.
  rewrite D1, D2, D3. rewrite !N.shiftl_mul_pow2. cbn [unle].
  change (2 ^ 8) with 256. change (2 ^ 16) with 65536. change (2 ^ 24) with 16777216.
  repeat split; try assumption; lia.
Qed.
