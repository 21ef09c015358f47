(** What is false of the server, and the statements used in PropsServer.v. *)
From Verif Require Import Base GoBuf CodecPrim Types Codec Gen GenThm GenInv Msgs GenEq CodecSpec MsgThm
  CodecLemmas CodecLemmas2 CodecLemmas3 CodecLemmas4 StubPrim Stubs Server ServerSpec ServerLemmas ServerLemmas2 ServerLemmas3 Rpc ServerLemmas4
  ServerWitness.

Lemma request_types_is ty : is_ttype ty = true <-> In ty request_types.
Proof.
  unfold is_ttype, request_types. rewrite existsb_exists. split.
  - intros (x & H & E). apply N.eqb_eq in E. subst. revert H. cbn. tauto.
  - intros H. exists ty. split; [revert H; cbn; tauto|apply N.eqb_refl].
Qed.
Lemma reply_kind {St} (ns : NineServer St) e i st ty tag body :
  ty < 256 -> tag < 65536 -> 7 + blen body < 4294967296 -> e_write e i = None ->
  let r := serve_from ns e i st [Chunk (raw ty tag body)] in
  r_crashed r = true \/
  exists m, r_out r = [marshalR tag m] /\ (In ty request_types /\ rtype m = ty + 1 \/ rtype m = 107).
Proof.
  intros Hty Htag Hl Hw r. subst r. rewrite serve_raw by assumption.
  destruct (Dispatch _ _ _ _) as [st' out|] eqn:E; [right|left; reflexivity].
  destruct (in_dec N.eq_dec ty request_types) as [Hin|Hin].
  - apply Dispatch_reply in E; [|assumption]. destruct E as (m & -> & Hm). exists m. split; [reflexivity|]. tauto.
  - assert (Hk : is_ttype ty = false) by (destruct (is_ttype ty) eqn:X; [apply request_types_is in X; contradiction|reflexivity]).
    unfold Dispatch in E.
    assert (Hv : ty <> Tversion_t) by (intros ->; discriminate).
    apply N.eqb_neq in Hv. rewrite Hv in E. destruct (Versioned st).
    + rewrite dispatch_unknown in E by assumption. injection E as _ <-.
      eexists (MRerror (mkRerrorPkt _)). split; [reflexivity|right; reflexivity].
    + rewrite le2_bytes in E. cbn [unread app] in E. rewrite tag_of_bytes16 in E by assumption. injection E as _ <-.
      rewrite MarshalRerror_R. eexists (MRerror (mkRerrorPkt _)). split; [reflexivity|right; reflexivity].
Qed.
Lemma unknown_type {St} (ns : NineServer St) e i s ty tag body :
  ty < 256 -> tag < 65536 -> 7 + blen body < 4294967296 -> e_write e i = None -> ~ In ty request_types ->
  serve_from ns e i (mkSrv true s) [Chunk (raw ty tag body)]
  = mkRun [marshalR tag (MRerror (mkRerrorPkt (str "Dispatch: " ++ RPCNames ty ++ str " not supported")))] false (mkSrv true s).
Proof.
  intros Hty Htag Hl Hw Hin. rewrite serve_raw by assumption.
  assert (Hk : is_ttype ty = false) by (destruct (is_ttype ty) eqn:X; [apply request_types_is in X; contradiction|reflexivity]).
  unfold Dispatch. assert (Hv : ty <> Tversion_t) by (intros ->; discriminate).
  apply N.eqb_neq in Hv. rewrite Hv. cbn [Versioned NS]. rewrite dispatch_unknown by assumption. reflexivity.
Qed.

(** C17 *)
Lemma c17_refuted :
  ~ (forall (St : Type) (ns : NineServer St) e s s1 err t1 t2 m1 m2,
       (forall i, e_write e i = None) -> ok_req (t1, m1) -> ok_req (t2, m2) ->
       is_version m1 = true -> is_version m2 = false -> invoke ns s m1 = NSErr s1 err ->
       NS (r_st (serve ns e s [Chunk (enc_req (t1, m1) ++ enc_req (t2, m2))])) = s1).
Proof.
  intros H.
  specialize (H N (counting true) quiet 0 1 (str "no") 1 2 (MTversion (mkTversionPkt 8192 (str "9P2000"))) (MTclunk (mkTclunkPkt 5))).
  discriminate H; try reflexivity; repeat split; vm_compute; reflexivity.
Qed.
Lemma c17_opens {St} (ns : NineServer St) e i v s t m :
  ok_req (t, m) -> e_write e i = None -> is_version m = true -> invoke ns s m <> NSPanic ->
  Versioned (r_st (serve_from ns e i (mkSrv v s) [Chunk (enc_req (t, m))])) = true.
Proof.
  intros (Ht & Hf & Hl) Hw Hv Hn. cbn [fst snd] in *. unfold enc_req. cbn [fst snd].
  rewrite serve_request by assumption. unfold answer. rewrite Hv, orb_true_r.
  destruct (invoke ns s m); [reflexivity|reflexivity|contradiction].
Qed.

(** C18 *)
Lemma c18_refuted :
  ~ (forall (St : Type) (ns : NineServer St) e i s ty tag body m t' rest err,
       e_write e i = None -> ty < 256 -> tag < 65536 -> 7 + blen body < 4294967296 ->
       unmarshalT ty (Buf (le 2 tag ++ body) (e_spare e i)) = Some (URet m t' rest (Some err)) ->
       NS (r_st (serve_from ns e i (mkSrv true s) [Chunk (raw ty tag body)])) = s).
Proof.
  intros H.
  specialize (H N (counting true) quiet 0%nat 0 122 3 [x05; x00; x00; x00; xff] (MTremove (mkTremovePkt 5)) 3
    (Buf [xff] (repeat x00 512)) (str "Packet too long: 1 bytes left over after decode")).
  discriminate H; vm_compute; reflexivity.
Qed.
Lemma c18_exact {St} (ns : NineServer St) e i s ty tag body m t' rest err :
  e_write e i = None -> ty < 256 -> tag < 65536 -> 7 + blen body < 4294967296 ->
  unmarshalT ty (Buf (le 2 tag ++ body) (e_spare e i)) = Some (URet m t' rest err) ->
  serve_from ns e i (mkSrv true s) [Chunk (raw ty tag body)] =
  match invoke ns s m with
  | NSOk s r => mkRun [marshalR tag r] false (mkSrv true s)
  | NSErr s e => mkRun [marshalR tag (MRerror (mkRerrorPkt e))] false (mkSrv true s)
  | NSPanic => mkRun [] true (mkSrv true s)
  end.
Proof.
  intros Hw Hty Htag Hl H. rewrite serve_raw by assumption.
  assert (Hk : is_ttype ty = true).
  { destruct (is_ttype ty) eqn:X; [reflexivity|]. exfalso. revert X H. unfold is_ttype, unmarshalT. cbn [existsb].
    repeat match goal with |- context [if ?c then _ else _] => destruct c eqn:?; [discriminate|] end. discriminate. }
  assert (D : Dispatch ns (mkSrv true s) (Buf (le 2 tag ++ body) (e_spare e i)) ty
              = dispatch_switch ns true s (Buf (le 2 tag ++ body) (e_spare e i)) ty)
    by (unfold Dispatch; destruct (ty =? Tversion_t); reflexivity).
  rewrite D, dispatch_known by exact Hk. pose proof H as H0.
  apply unmarshalT_tag in H0; [|exact Htag]. destruct H0 as [-> _]. rewrite H.
  destruct (invoke ns s m); reflexivity.
Qed.

(** C19 *)
Lemma c19_refuted :
  ~ (forall (St : Type) (ns : NineServer St) e s cs1 cs2,
       nonempty cs1 -> nonempty cs2 -> concat cs1 = concat cs2 ->
       serve ns e s (map Chunk cs1) = serve ns e s (map Chunk cs2)).
Proof.
  intros H. set (v := marshalT 1 (MTversion (mkTversionPkt 8192 (str "9P2000")))).
  specialize (H N (counting false) quiet 0 [v] [firstn 3 v; skipn 3 v]).
  discriminate H; [repeat constructor; vm_compute; discriminate..|reflexivity].
Qed.

(** C20 *)
Lemma c20_refuted :
  ~ (forall (St : Type) (ns : NineServer St) e s evs,
       (forall s m, invoke ns s m <> NSPanic) -> (forall i, 512 <= blen (e_spare e i)) ->
       r_crashed (serve ns e s evs) = false).
Proof.
  intros H.
  specialize (H N (counting false) quiet 0
    [Chunk (enc_req (1, MTversion (mkTversionPkt 8192 (str "9P2000")))
            ++ raw 118 2 (le 4 5 ++ le 8 0 ++ le 4 1000 ++ str "data"))]).
  discriminate H; [apply counting_total|intros; vm_compute; discriminate].
Qed.
Lemma c20_honest {St} (ns : NineServer St) e s evs fs :
  (forall s m, invoke ns s m <> NSPanic) -> frames_of (received evs) fs ->
  (forall f, In f fs -> f_type f = 118 \/ f_type f = 126 ->
     exists m, fitsT m /\ wireT m = (f_type f, snd (wireT m)) /\ f_body f = concat (snd (wireT m))) ->
  r_crashed (serve ns e s evs) = false.
Proof.
  intros Hns F Hh. destruct (r_crashed (serve ns e s evs)) eqn:C; [|reflexivity]. exfalso.
  destruct (crash_cause ns e Hns _ evs _ _ fs (Nat.lt_succ_diag_r _) F C) as (k & f & Hk & Hty & Hp).
  apply nth_error_In in Hk. destruct (Hh f Hk Hty) as (m & Hf & Hw & Hb).
  assert (Htag : f_tag f < 65536).
  { pose proof (frames_tags _ _ F) as T. rewrite Forall_forall in T. apply T, Hk. }
  rewrite Hb in Hp.
  replace (le 2 (f_tag f) ++ concat (snd (wireT m))) with (skipn 5 (marshalT (f_tag f) m)) in Hp
    by (rewrite layoutT, frame_body; reflexivity).
  assert (Ht : f_type f = ttype m) by (rewrite <- ttype_wire, Hw; reflexivity).
  rewrite Ht, roundtripT in Hp by assumption. discriminate.
Qed.

(** C21 *)
Lemma c21_undersized_refuted :
  ~ (forall (St : Type) (ns : NineServer St) e s cs,
       nonempty cs -> headers_whole cs ->
       exists fs rest, frames_of (concat cs) (fs ++ rest) /\ replies fs (r_out (serve ns e s (map Chunk cs))) /\
       exists bs bs', concat cs = bs ++ bs' /\ strict_frames bs fs).
Proof.
  intros H. set (m := [x03; x00; x00; x00; x78; x07; x00]).
  destruct (H N (counting false) quiet 0 [m]) as (fs & rest & _ & R & bs & bs' & E & S).
  { repeat constructor. discriminate. } { apply whole_single. }
  destruct S as [|size ty tag body r fs Hs _ _ _ _].
  - revert R. vm_compute. intros R. inversion R.
  - cbn [concat app] in E. rewrite app_nil_r in E.
    apply (f_equal (fun l => unle (firstn 4 l))) in E. cbn [le app] in E. cbn [firstn] in E.
    change [u8 size; u8 (size / 256); u8 (size / 256 / 256); u8 (size / 256 / 256 / 256)] with (le 4 size) in E.
    rewrite unle_le_small in E by (change (cap 4) with 4294967296; lia).
    vm_compute in E. subst size. lia.
Qed.
Lemma c21_truncated_refuted :
  ~ (forall (St : Type) (ns : NineServer St) e i s size ty tag body,
       e_write e i = None -> 7 <= size < 4294967296 -> ty < 256 -> tag < 65536 -> blen body < size - 7 ->
       NS (r_st (serve_from ns e i (mkSrv true s) [Chunk (le 4 size ++ le 1 ty ++ le 2 tag ++ body)])) = s).
Proof.
  intros H. specialize (H N (counting false) quiet 0%nat 0 100 122 7 [x05; x00; x00; x00]).
  discriminate H; vm_compute; try reflexivity. split; [discriminate|reflexivity].
Qed.
Lemma c21_msize_refuted :
  ~ (forall (St : Type) (ns : NineServer St) e s s1 msize ver t1 m1 t2 m2,
       (forall i, e_write e i = None) -> ok_req (t1, m1) -> ok_req (t2, m2) ->
       is_version m1 = true -> is_version m2 = false ->
       invoke ns s m1 = NSOk s1 (MRversion (mkRversionPkt msize ver)) ->
       msize < blen (enc_req (t2, m2)) ->
       NS (r_st (serve ns e s [Chunk (enc_req (t1, m1) ++ enc_req (t2, m2))])) = s1).
Proof.
  intros H.
  specialize (H N (counting false) quiet 0 1 8 (str "9P2000") 1 (MTversion (mkTversionPkt 8192 (str "9P2000")))
    2 (MTclunk (mkTclunkPkt 5))).
  discriminate H; try reflexivity; repeat split; vm_compute; reflexivity.
Qed.
Lemma c21_strict {St} (ns : NineServer St) e i st cs fs :
  (forall j, e_write e j = None) -> nonempty cs -> headers_whole cs -> strict_frames (concat cs) fs ->
  r_crashed (serve_from ns e i st (map Chunk cs)) = false ->
  Forall2 reply_to fs (r_out (serve_from ns e i st (map Chunk cs))).
Proof.
  intros Hw Hn Hh S. apply (all_frames ns e Hw _ cs i st fs (Nat.lt_succ_diag_r _)); try assumption.
  apply strict_frames_of, S.
Qed.
Lemma no_version {St} (ns : NineServer St) e s : (forall j, e_write e j = None) -> forall cs i fs,
  nonempty cs -> headers_whole cs -> frames_of (concat cs) fs -> Forall (fun f => f_type f <> 100) fs ->
  serve_from ns e i (mkSrv false s) (map Chunk cs) = mkRun (map refusal fs) false (mkSrv false s).
Proof.
  intros H cs i fs N W F V. rewrite <- (app_nil_r fs) in F.
  destruct (before_version ns e s H _ cs i fs [] (Nat.lt_succ_diag_r _) N W F V) as (cs' & N' & W' & F' & ->).
  apply frames_inv in F'. destruct F' as [[L _]|(?&?&?&?&?&_&_&_&_&X&_)]; [|discriminate X].
  rewrite serve_unfold, iter_short by (rewrite stream_chunks; exact L). cbv zeta. cbn [r_out r_crashed r_st].
  rewrite app_nil_r. reflexivity.
Qed.
