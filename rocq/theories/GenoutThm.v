(** What the text of genout.go does, gathered over all messages. *)
From Verif Require Import Base GoBuf CodecPrim Types Codec StubPrim Stubs Gen Msgs GenThm GenInv GenEq CodecSpec MsgThm CodecLemmas Rpc Server ServerSpec ServerLemmas ServerLemmas4
  GoSyntax GoSem GenoutProg GenoutSem GenoutMarshal GenoutUnmarshal GenoutWalk GenoutStubSem GenoutStubs.

(** * ServerError *)
Definition body_ServerError : func := Eval vm_compute in fn (str "ServerError").
Lemma text_ServerError {X} (W : outside X) call e b x
  (He : forall t e b x, exists sp, call (str "MarshalRerrorPkt") [VBuf; VU 16 t; VStr e] b x = Ret [] (Buf (MarshalRerrorPkt t e) sp) x) :
  exists sp, call_func W call body_ServerError [VBuf; VStr e] b x = Ret [] (Buf (ServerError b e) sp) x.
Proof.
  unfold ServerError, rd. enter.
  rewrite exec_cons. first_exec. subst. rewrite exec_if. first_exec. nats.
  destruct (buf_read 2 b) as [[y b']|] eqn:R.
  2:{ subst. ex_eval. destruct b. eexists. reflexivity. }
  subst. ex_eval. nats. autorewrite with go. change (repeat x00 8) with u_zero.
  destruct (He (N.lor (ub (overlay u_zero y) 0) (N.shiftl (ub (overlay u_zero y) 1) 8)) e b' x) as [sp E].
  exists sp. lazymatch type of E with ?c = _ => lazymatch goal with |- match ?c' with _ => _ end = _ => change c' with c end end. rewrite E. reflexivity.
Qed.
Lemma run_ServerError {X} (W : outside X) d e b x :
  exists sp, run W genout (S (S d)) (str "ServerError") [VBuf; VStr e] b x = Ret [] (Buf (ServerError b e) sp) x.
Proof.
  rewrite (run_one W body_ServerError) by (vm_compute; reflexivity). apply text_ServerError.
  intros t s. exact (run_MarshalRerrorPkt W d t (mkRerrorPkt s)).
Qed.

Local Opaque run.
(** * Tables *)
(** The fields of a message, in the order of its struct in protocol.go, as Go values. *)
Definition valuesT (m : tmsg) : list value :=
  match m with
  | MTversion f => vs_Tversion f | MTattach f => vs_Tattach f | MTflush f => vs_Tflush f | MTwalk f => vs_Twalk f | MTopen f => vs_Topen f
  | MTcreate f => vs_Tcreate f | MTread f => vs_Tread f | MTwrite f => vs_Twrite f | MTclunk f => vs_Tclunk f | MTremove f => vs_Tremove f
  | MTstat f => vs_Tstat f | MTwstat f => vs_Twstat f
  end.
Definition valuesR (m : rmsg) : list value :=
  match m with
  | MRversion f => vs_Rversion f | MRattach f => vs_Rattach f | MRerror f => vs_Rerror f | MRflush f => vs_Rflush f | MRwalk f => vs_Rwalk f | MRopen f => vs_Ropen f
  | MRcreate f => vs_Rcreate f | MRread f => vs_Rread f | MRwrite f => vs_Rwrite f | MRclunk f => vs_Rclunk f | MRremove f => vs_Rremove f
  | MRstat f => vs_Rstat f | MRwstat f => vs_Rwstat f
  end.
Definition marshal_name (ty : N) : bytes := str "Marshal" ++ RPCNames ty ++ str "Pkt".
Definition unmarshal_name (ty : N) : bytes := str "Unmarshal" ++ RPCNames ty ++ str "Pkt".
(** SrvRversion answers requests of type Tversion, and so on: the reply's type is one higher. *)
Definition srv_name (ty : N) : bytes := str "Srv" ++ RPCNames (ty + 1).
Definition call_name (ty : N) : bytes := str "Call" ++ RPCNames ty.

(** * All messages *)
Lemma run_marshalT {X} (W : outside X) d t m b x :
  exists sp, run W genout (S d) (marshal_name (ttype m)) (VBuf :: VU 16 t :: valuesT m) b x = Ret [] (Buf (CodecSpec.frame (fst (wireT m)) t (snd (wireT m))) sp) x.
Proof.
  rewrite <- layoutT. destruct m as [p|p|p|p|p|p|p|p|p|p|p|p]; destruct p.
  - match goal with |- context[MTversion ?f] => exact (run_MarshalTversionPkt W d t f b x) end.
  - match goal with |- context[MTattach ?f] => exact (run_MarshalTattachPkt W d t f b x) end.
  - match goal with |- context[MTflush ?f] => exact (run_MarshalTflushPkt W d t f b x) end.
  - match goal with |- context[MTwalk ?f] => exact (run_MarshalTwalkPkt W d t f b x) end.
  - match goal with |- context[MTopen ?f] => exact (run_MarshalTopenPkt W d t f b x) end.
  - match goal with |- context[MTcreate ?f] => exact (run_MarshalTcreatePkt W d t f b x) end.
  - match goal with |- context[MTread ?f] => exact (run_MarshalTreadPkt W d t f b x) end.
  - match goal with |- context[MTwrite ?f] => exact (run_MarshalTwritePkt W d t f b x) end.
  - match goal with |- context[MTclunk ?f] => exact (run_MarshalTclunkPkt W d t f b x) end.
  - match goal with |- context[MTremove ?f] => exact (run_MarshalTremovePkt W d t f b x) end.
  - match goal with |- context[MTstat ?f] => exact (run_MarshalTstatPkt W d t f b x) end.
  - match goal with |- context[MTwstat ?f] => exact (run_MarshalTwstatPkt W d t f b x) end.
Qed.
Lemma run_marshalR {X} (W : outside X) d t m b x :
  exists sp, run W genout (S d) (marshal_name (rtype m)) (VBuf :: VU 16 t :: valuesR m) b x = Ret [] (Buf (CodecSpec.frame (fst (wireR m)) t (snd (wireR m))) sp) x.
Proof.
  rewrite <- layoutR. destruct m as [p|p|p|p|p|p|p|p|p|p|p|p|p]; destruct p.
  - match goal with |- context[MRversion ?f] => exact (run_MarshalRversionPkt W d t f b x) end.
  - match goal with |- context[MRattach ?f] => exact (run_MarshalRattachPkt W d t f b x) end.
  - match goal with |- context[MRerror ?f] => exact (run_MarshalRerrorPkt W d t f b x) end.
  - match goal with |- context[MRflush ?f] => exact (run_MarshalRflushPkt W d t f b x) end.
  - match goal with |- context[MRwalk ?f] => exact (run_MarshalRwalkPkt W d t f b x) end.
  - match goal with |- context[MRopen ?f] => exact (run_MarshalRopenPkt W d t f b x) end.
  - match goal with |- context[MRcreate ?f] => exact (run_MarshalRcreatePkt W d t f b x) end.
  - match goal with |- context[MRread ?f] => exact (run_MarshalRreadPkt W d t f b x) end.
  - match goal with |- context[MRwrite ?f] => exact (run_MarshalRwritePkt W d t f b x) end.
  - match goal with |- context[MRclunk ?f] => exact (run_MarshalRclunkPkt W d t f b x) end.
  - match goal with |- context[MRremove ?f] => exact (run_MarshalRremovePkt W d t f b x) end.
  - match goal with |- context[MRstat ?f] => exact (run_MarshalRstatPkt W d t f b x) end.
  - match goal with |- context[MRwstat ?f] => exact (run_MarshalRwstatPkt W d t f b x) end.
Qed.
Lemma run_unmarshalT {X} (W : outside X) d ty b x : is_ttype ty = true ->
  run W genout (S d) (unmarshal_name ty) [VBuf] b x =
  match unmarshalT ty b with Some (URet m t b err) => Ret (also (valuesT m) [VU 16 t; VErr err]) b x | _ => Panic end.
Proof.
  revert ty. apply is_ttype_cases.
  all: match goal with |- _ = match unmarshalT ?t ?b with _ => _ end =>
    let y := eval cbv [unmarshalT N.eqb Pos.eqb Tversion_t Tattach_t Tflush_t Twalk_t Topen_t Tcreate_t Tread_t Twrite_t Tclunk_t Tremove_t Tstat_t Twstat_t] in (unmarshalT t b) in
    change (unmarshalT t b) with y end.
  1: pose proof (run_UnmarshalTversionPkt W d b x) as E. 2: pose proof (run_UnmarshalTattachPkt W d b x) as E. 3: pose proof (run_UnmarshalTflushPkt W d b x) as E.
  4: pose proof (run_UnmarshalTwalkPkt W d b x) as E. 5: pose proof (run_UnmarshalTopenPkt W d b x) as E. 6: pose proof (run_UnmarshalTcreatePkt W d b x) as E.
  7: pose proof (run_UnmarshalTreadPkt W d b x) as E. 8: pose proof (run_UnmarshalTwritePkt W d b x) as E. 9: pose proof (run_UnmarshalTclunkPkt W d b x) as E.
  10: pose proof (run_UnmarshalTremovePkt W d b x) as E. 11: pose proof (run_UnmarshalTstatPkt W d b x) as E. 12: pose proof (run_UnmarshalTwstatPkt W d b x) as E.
  all: match goal with |- ?l = match Some (umap _ ?U) with _ => _ end => match type of E with ?l' = _ => change l with l' end; rewrite E; destruct U; reflexivity end.
Qed.
Lemma run_unmarshalR {X} (W : outside X) d ty b x : is_rtype ty = true ->
  run W genout (S d) (unmarshal_name ty) [VBuf] b x =
  match unmarshalR ty b with Some (URet m t b err) => Ret (also (valuesR m) [VU 16 t; VErr err]) b x | _ => Panic end.
Proof.
  revert ty. apply is_rtype_cases.
  all: match goal with |- _ = match unmarshalR ?t ?b with _ => _ end =>
    let y := eval cbv [unmarshalR N.eqb Pos.eqb Rversion_t Rattach_t Rerror_t Rflush_t Rwalk_t Ropen_t Rcreate_t Rread_t Rwrite_t Rclunk_t Rremove_t Rstat_t Rwstat_t] in (unmarshalR t b) in
    change (unmarshalR t b) with y end.
  all: match goal with |- _ = match Some (umap ?c ?U) with _ => _ end =>
    lazymatch c with
    | MRversion => pose proof (run_UnmarshalRversionPkt W d b x) as E | MRattach => pose proof (run_UnmarshalRattachPkt W d b x) as E
    | MRerror => pose proof (run_UnmarshalRerrorPkt W d b x) as E | MRflush => pose proof (run_UnmarshalRflushPkt W d b x) as E
    | MRwalk => pose proof (run_UnmarshalRwalkPkt W d b x) as E | MRopen => pose proof (run_UnmarshalRopenPkt W d b x) as E
    | MRcreate => pose proof (run_UnmarshalRcreatePkt W d b x) as E | MRread => pose proof (run_UnmarshalRreadPkt W d b x) as E
    | MRwrite => pose proof (run_UnmarshalRwritePkt W d b x) as E | MRclunk => pose proof (run_UnmarshalRclunkPkt W d b x) as E
    | MRremove => pose proof (run_UnmarshalRremovePkt W d b x) as E | MRstat => pose proof (run_UnmarshalRstatPkt W d b x) as E
    | MRwstat => pose proof (run_UnmarshalRwstatPkt W d b x) as E end end.
  all: match goal with |- ?l = match Some (umap _ ?U) with _ => _ end => match type of E with ?l' = _ => change l with l' end; rewrite E; destruct U; reflexivity end.
Qed.

(** * Round trip through the text of both functions *)
Lemma run_roundtripT {X} (W : outside X) d t m sp x : fitsT m -> t < 65536 ->
  run W genout (S d) (unmarshal_name (ttype m)) [VBuf] (Buf (skipn 5 (CodecSpec.frame (fst (wireT m)) t (snd (wireT m)))) sp) x =
  Ret (also (valuesT m) [VU 16 t; VErr None]) (Buf [] sp) x.
Proof. intros H Ht. rewrite run_unmarshalT by apply is_ttype_ttype. rewrite <- layoutT, roundtripT by assumption. reflexivity. Qed.
Lemma run_roundtripR {X} (W : outside X) d t m sp x : fitsR m -> t < 65536 ->
  run W genout (S d) (unmarshal_name (rtype m)) [VBuf] (Buf (skipn 5 (CodecSpec.frame (fst (wireR m)) t (snd (wireR m)))) sp) x =
  Ret (also (valuesR m) [VU 16 t; VErr None]) (Buf [] sp) x.
Proof. intros H Ht. rewrite run_unmarshalR by apply is_rtype_rtype. rewrite <- layoutR, roundtripR by assumption. reflexivity. Qed.

(** * Stat records *)
Lemma run_marshaldir {X} (W : outside X) d D b x :
  exists sp, run W genout (S d) (str "Marshaldir") [VBuf; dirv D] b x = Ret [] (Buf (le 2 (blen (concat (wireDir D))) ++ concat (wireDir D)) sp) x.
Proof. rewrite <- layoutDir. apply run_Marshaldir. Qed.
Lemma run_roundtripDir {X} (W : outside X) d D r sp x : fitsDir D ->
  run W genout (S d) (str "Unmarshaldir") [VBuf] (Buf ((le 2 (blen (concat (wireDir D))) ++ concat (wireDir D)) ++ r) sp) x = Ret [dirv D; VErr None] (Buf r sp) x.
Proof. intros H. rewrite run_Unmarshaldir, <- layoutDir, roundtripDir by exact H. reflexivity. Qed.

(** * The server side *)
Lemma run_srv {St} (W : outside St) (ns : NineServer St) (HM : method W = ns_method ns) d ty b s : is_ttype ty = true ->
  exists sp, run W genout (S (S d)) (srv_name ty) [VBuf] b s =
  match unmarshalT ty b with
  | Some (URet m t _ _) =>
      match invoke ns s m with
      | NSOk s r => Ret [VNil] (Buf (CodecSpec.frame (fst (wireR r)) t (snd (wireR r))) sp) s
      | NSErr s e => Ret [VNil] (Buf (let r := MRerror (mkRerrorPkt e) in CodecSpec.frame (fst (wireR r)) t (snd (wireR r))) sp) s
      | NSPanic => Panic
      end
  | _ => Panic
  end.
Proof.
  intros Hty.
  assert (R : exists sp, run W genout (S (S d)) (srv_name ty) [VBuf] b s =
    match dispatch_switch ns true s b ty with SrvPanic => Panic | SrvReply s out => Ret [VNil] (Buf out sp) (NS s) end).
  { revert ty Hty. apply is_ttype_cases.
    all: match goal with |- context[dispatch_switch ?ns ?v ?s ?b ?t] =>
      let y := eval cbv [dispatch_switch N.eqb Pos.eqb Tversion_t Tattach_t Tflush_t Twalk_t Topen_t Tcreate_t Tread_t Twrite_t Tclunk_t Tremove_t Tstat_t Twstat_t] in (dispatch_switch ns v s b t) in
      change (dispatch_switch ns v s b t) with y end.
    1: destruct (run_SrvRversion W ns HM d b s) as [sp E]. 2: destruct (run_SrvRattach W ns HM d b s) as [sp E]. 3: destruct (run_SrvRflush W ns HM d b s) as [sp E].
    4: destruct (run_SrvRwalk W ns HM d b s) as [sp E]. 5: destruct (run_SrvRopen W ns HM d b s) as [sp E]. 6: destruct (run_SrvRcreate W ns HM d b s) as [sp E].
    7: destruct (run_SrvRread W ns HM d b s) as [sp E]. 8: destruct (run_SrvRwrite W ns HM d b s) as [sp E]. 9: destruct (run_SrvRclunk W ns HM d b s) as [sp E].
    10: destruct (run_SrvRremove W ns HM d b s) as [sp E]. 11: destruct (run_SrvRstat W ns HM d b s) as [sp E]. 12: destruct (run_SrvRwstat W ns HM d b s) as [sp E].
    all: exists sp; match goal with |- ?l = match on_ns _ ?U with _ => _ end => match type of E with ?l' = _ => change l with l' end; rewrite E; destruct U; reflexivity end. }
  destruct R as [sp E]. exists sp. rewrite E, dispatch_known by exact Hty.
  destruct (unmarshalT ty b) as [[m t b' e|]|]; try reflexivity.
  destruct (invoke ns s m) as [s1 r1|s1 e0|]; cbn [stub_result on_ns NS]; [rewrite layoutR; reflexivity| |reflexivity].
  change (MarshalRerrorPkt t e0) with (marshalR t (MRerror (mkRerrorPkt e0))). rewrite layoutR. reflexivity.
Qed.

(** * The client side *)
Lemma run_call {X} (W : outside X) d m b x :
  exists b', run W genout (S (S d)) (call_name (ttype m)) (valuesT m) b x =
  let '(bb, x') := recv W (send W (CodecSpec.frame (fst (wireT m)) 0 (snd (wireT m))) x) in
  match call_result m (unread bb) (spare bb) with CallPanic => Panic | CallRet r err => Ret (also (valuesR r) [VErr err]) b' x' end.
Proof.
  rewrite <- layoutT, <- call_request_marshal.
  destruct m as [p|p|p|p|p|p|p|p|p|p|p|p].
  1: destruct (run_CallTversion W d p b x) as [b' E]. 2: destruct (run_CallTattach W d p b x) as [b' E]. 3: destruct (run_CallTflush W d p b x) as [b' E].
  4: destruct (run_CallTwalk W d p b x) as [b' E]. 5: destruct (run_CallTopen W d p b x) as [b' E]. 6: destruct (run_CallTcreate W d p b x) as [b' E].
  7: destruct (run_CallTread W d p b x) as [b' E]. 8: destruct (run_CallTwrite W d p b x) as [b' E]. 9: destruct (run_CallTclunk W d p b x) as [b' E].
  10: destruct (run_CallTremove W d p b x) as [b' E]. 11: destruct (run_CallTstat W d p b x) as [b' E]. 12: destruct (run_CallTwstat W d p b x) as [b' E].
  all: exists b'; match goal with |- ?l = _ => match type of E with ?l' = _ => change l with l' end end; rewrite E; destruct p.
  all: match goal with |- context[call_request ?m] => let r := eval cbv beta iota delta [call_request] in (call_request m) in change (call_request m) with r end.
  all: cbn [Types.Tversion_TMsize Types.Tversion_TVersion Types.Tattach_SFID Types.Tattach_AFID Types.Tattach_Uname Types.Tattach_Aname Types.Tflush_OTag Types.Twalk_SFID Types.Twalk_NewFID Types.Twalk_Paths Types.Topen_OFID Types.Topen_Omode
    Types.Tcreate_OFID Types.Tcreate_Name Types.Tcreate_CreatePerm Types.Tcreate_Omode Types.Tread_OFID Types.Tread_Off Types.Tread_Len Types.Twrite_OFID Types.Twrite_Off Types.Twrite_Data Types.Tclunk_OFID Types.Tremove_OFID Types.Tstat_OFID Types.Twstat_OFID Types.Twstat_B].
  all: match goal with |- context[recv ?w ?y] => destruct (recv w y) as [bb x'] end; cbn [call_result];
    match goal with |- context[cmap _ ?U] => destruct U; reflexivity end.
Qed.

(** * A call across the wire: both stubs run from their text *)
Lemma invoke_rtype {St} (ns : NineServer St) s m s' r : invoke ns s m = NSOk s' r -> rtype r = ttype m + 1 /\ rtype r <> 107.
Proof.
  destruct m as [[]|[]|[]|[]|[]|[]|[]|[]|[]|[]|[]|[]]; cbn [invoke]; unfold nsmap;
  match goal with |- match ?u with _ => _ end = _ -> _ => destruct u; intros E; [|discriminate|discriminate]; injection E as _ <-; split; [reflexivity|discriminate] end.
Qed.
Lemma run_rpc_ok {X St} (W : outside X) (Ws : outside St) (ns : NineServer St) (HM : method Ws = ns_method ns) d m t s s' r spq : fitsT m -> t < 65536 -> invoke ns s m = NSOk s' r -> fitsR r ->
  exists out spo, run Ws genout (S (S d)) (srv_name (ttype m)) [VBuf] (Buf (skipn 5 (CodecSpec.frame (fst (wireT m)) t (snd (wireT m)))) spq) s = Ret [VNil] (Buf out spo) s' /\
  forall b x x' sp, recv W (send W (CodecSpec.frame (fst (wireT m)) 0 (snd (wireT m))) x) = (Buf out sp, x') ->
  exists b', run W genout (S (S d)) (call_name (ttype m)) (valuesT m) b x = Ret (also (valuesR r) [VErr None]) b' x'.
Proof.
  intros Hf Ht Hi Hr.
  destruct (run_srv Ws ns HM d (ttype m) (Buf (skipn 5 (CodecSpec.frame (fst (wireT m)) t (snd (wireT m)))) spq) s (is_ttype_ttype m)) as [spo E].
  rewrite <- layoutT, roundtripT, Hi in E by assumption. rewrite <- layoutR in E.
  eexists _, spo. split; [rewrite <- layoutT; exact E|].
  intros b x x' sp Hx. destruct (run_call W d m b x) as [b' C]. exists b'. rewrite C, Hx. cbn [unread spare].
  destruct (invoke_rtype _ _ _ _ _ Hi) as [Y1 Y2]. rewrite call_of_reply by assumption. reflexivity.
Qed.
Lemma run_rpc_err {X St} (W : outside X) (Ws : outside St) (ns : NineServer St) (HM : method Ws = ns_method ns) d m t s s' err spq : fitsT m -> t < 65536 -> invoke ns s m = NSErr s' err -> short err ->
  exists out spo, run Ws genout (S (S d)) (srv_name (ttype m)) [VBuf] (Buf (skipn 5 (CodecSpec.frame (fst (wireT m)) t (snd (wireT m)))) spq) s = Ret [VNil] (Buf out spo) s' /\
  forall b x x' sp, recv W (send W (CodecSpec.frame (fst (wireT m)) 0 (snd (wireT m))) x) = (Buf out sp, x') ->
  exists b' z, run W genout (S (S d)) (call_name (ttype m)) (valuesT m) b x = Ret (also z [VErr (Some err)]) b' x'.
Proof.
  intros Hf Ht Hi Hr.
  destruct (run_srv Ws ns HM d (ttype m) (Buf (skipn 5 (CodecSpec.frame (fst (wireT m)) t (snd (wireT m)))) spq) s (is_ttype_ttype m)) as [spo E].
  rewrite <- layoutT, roundtripT, Hi in E by assumption. cbv zeta in E. rewrite <- layoutR in E.
  eexists _, spo. split; [rewrite <- layoutT; exact E|].
  intros b x x' sp Hx. destruct (run_call W d m b x) as [b' C]. exists b', (valuesR (zero_reply m)). rewrite C, Hx. cbn [unread spare].
  rewrite call_of_error by assumption. reflexivity.
Qed.

(** * The generator's output *)
From Verif Require GenText GenoutText.
Lemma beq_eq a b : beq a b = true -> a = b.
Proof.
  revert b. induction a as [|x a IH]; intros [|y b]; cbn [beq]; intros H; try discriminate; [reflexivity|].
  destruct (Byte.eqb x y) eqn:H1; [|discriminate]. f_equal; [|apply IH, H]. apply Byte.byte_dec_bl, H1.
Qed.
Lemma generated : GenText.gen_main GenText.packages GenText.DirPkt_type = concat GenoutText.genout_text.
Proof. apply beq_eq. vm_cast_no_check (eq_refl true). Qed.
Lemma generated_other : GenText.gen_main (tl GenText.packages) GenText.DirPkt_type <> concat GenoutText.genout_text.
Proof.
  intros H. assert (E : beq (GenText.gen_main (tl GenText.packages) GenText.DirPkt_type) (concat GenoutText.genout_text) = false) by (vm_cast_no_check (eq_refl false)).
  rewrite H in E. assert (E2 : beq (concat GenoutText.genout_text) (concat GenoutText.genout_text) = true) by (vm_cast_no_check (eq_refl true)).
  rewrite E in E2. discriminate.
Qed.
