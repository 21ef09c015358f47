(** Property C56: gen.go writes genout.go; C57: the text of genout.go, run as Go code, does what the other properties say. *)
From Verif Require Import Base GoBuf CodecPrim Types Codec StubPrim Msgs CodecSpec MsgThm ServerSpec GoSyntax GoSem GenoutProg GenoutSem GenoutStubs GenoutThm.
From Verif Require GenText GenoutText.

(** * C56 *)
(** The generator, run on the message structs of protocol.go, writes protocol/genout.go byte for byte. *)
Theorem C56_generated : GenText.gen_main GenText.packages GenText.DirPkt_type = concat GenoutText.genout_text.
Proof. exact generated. Qed.
Print Assumptions C56_generated.
(** Another set of messages gives another file. *)
Example C56_case : GenText.gen_main (tl GenText.packages) GenText.DirPkt_type <> concat GenoutText.genout_text /\ blen (concat GenoutText.genout_text) = 48084.
Proof. split; [exact generated_other|vm_compute; reflexivity]. Qed.

(** * C57 *)
(** The text of the file is a program in the subset of Go that GoSyntax.v describes. *)
Theorem C57_parsed : parse (concat GenoutText.genout_text) = Some genout.
Proof. exact genout_parsed. Qed.
Print Assumptions C57_parsed.
(** Running Marshal functions: whatever was in the buffer before, whatever bytes.Buffer does with its spare memory, the
    buffer then holds the message as intro(5) lays it out. *)
Theorem C57_marshal_request : forall X (W : outside X) d t m b x,
  exists sp, run W genout (S d) (marshal_name (ttype m)) (VBuf :: VU 16 t :: valuesT m) b x = Ret [] (Buf (CodecSpec.frame (fst (wireT m)) t (snd (wireT m))) sp) x.
Proof. exact @run_marshalT. Qed.
Print Assumptions C57_marshal_request.
Theorem C57_marshal_reply : forall X (W : outside X) d t m b x,
  exists sp, run W genout (S d) (marshal_name (rtype m)) (VBuf :: VU 16 t :: valuesR m) b x = Ret [] (Buf (CodecSpec.frame (fst (wireR m)) t (snd (wireR m))) sp) x.
Proof. exact @run_marshalR. Qed.
Print Assumptions C57_marshal_reply.
Theorem C57_marshal_dir : forall X (W : outside X) d D b x,
  exists sp, run W genout (S d) (str "Marshaldir") [VBuf; dirv D] b x = Ret [] (Buf (le 2 (blen (concat (wireDir D))) ++ concat (wireDir D)) sp) x.
Proof. exact @run_marshaldir. Qed.
Print Assumptions C57_marshal_dir.
(** Running Unmarshal functions on such messages gives the fields back. *)
Theorem C57_unmarshal_request : forall X (W : outside X) d t m sp x, fitsT m -> t < 65536 ->
  run W genout (S d) (unmarshal_name (ttype m)) [VBuf] (Buf (skipn 5 (CodecSpec.frame (fst (wireT m)) t (snd (wireT m)))) sp) x =
  Ret (also (valuesT m) [VU 16 t; VErr None]) (Buf [] sp) x.
Proof. exact @run_roundtripT. Qed.
Print Assumptions C57_unmarshal_request.
Theorem C57_unmarshal_reply : forall X (W : outside X) d t m sp x, fitsR m -> t < 65536 ->
  run W genout (S d) (unmarshal_name (rtype m)) [VBuf] (Buf (skipn 5 (CodecSpec.frame (fst (wireR m)) t (snd (wireR m)))) sp) x =
  Ret (also (valuesR m) [VU 16 t; VErr None]) (Buf [] sp) x.
Proof. exact @run_roundtripR. Qed.
Print Assumptions C57_unmarshal_reply.
Theorem C57_unmarshal_dir : forall X (W : outside X) d D r sp x, fitsDir D ->
  run W genout (S d) (str "Unmarshaldir") [VBuf] (Buf ((le 2 (blen (concat (wireDir D))) ++ concat (wireDir D)) ++ r) sp) x = Ret [dirv D; VErr None] (Buf r sp) x.
Proof. exact @run_roundtripDir. Qed.
Print Assumptions C57_unmarshal_dir.
(** On any other buffer they do what the functions of Codec.v do, which is what C06-C11 speak about.  In particular the
    interpreter is never [Stuck]. *)
Theorem C57_any_request : forall X (W : outside X) d ty b x, is_ttype ty = true ->
  run W genout (S d) (unmarshal_name ty) [VBuf] b x =
  match unmarshalT ty b with Some (URet m t b err) => Ret (also (valuesT m) [VU 16 t; VErr err]) b x | _ => Panic end.
Proof. exact @run_unmarshalT. Qed.
Print Assumptions C57_any_request.
Theorem C57_any_reply : forall X (W : outside X) d ty b x, is_rtype ty = true ->
  run W genout (S d) (unmarshal_name ty) [VBuf] b x =
  match unmarshalR ty b with Some (URet m t b err) => Ret (also (valuesR m) [VU 16 t; VErr err]) b x | _ => Panic end.
Proof. exact @run_unmarshalR. Qed.
Print Assumptions C57_any_reply.
Theorem C57_any_dir : forall X (W : outside X) d b x,
  run W genout (S d) (str "Unmarshaldir") [VBuf] b x = match Unmarshaldir b with UPanic => Panic | URet f t b err => Ret [dirv f; VErr err] b x end.
Proof. exact @run_Unmarshaldir. Qed.
Print Assumptions C57_any_dir.
(** Running the server stubs: the file server's method is called with the decoded fields; the buffer then holds its
    answer under the tag of the request. *)
Theorem C57_server_stub : forall St (W : outside St) (ns : NineServer St), method W = ns_method ns -> forall d ty b s, is_ttype ty = true ->
  exists sp, run W genout (S (S d)) (srv_name ty) [VBuf] b s =
  match unmarshalT ty b with
  | Some (URet m t _ _) =>
      match invoke ns s m with
      | NSOk s r => Ret [VNil] (Buf (CodecSpec.frame (fst (wireR r)) t (snd (wireR r))) sp) s
      | NSErr s e => Ret [VNil] (Buf (let r := MRerror (mkRerrorPkt e) in CodecSpec.frame (fst (wireR r)) t (snd (wireR r))) sp) s
      | NSPanic => Panic
      end
  | _ => Panic
  end.
Proof. exact @run_srv. Qed.
Print Assumptions C57_server_stub.
Theorem C57_server_error : forall X (W : outside X) d e b x,
  exists sp, run W genout (S (S d)) (str "ServerError") [VBuf; VStr e] b x = Ret [] (Buf (ServerError b e) sp) x.
Proof. exact @run_ServerError. Qed.
Print Assumptions C57_server_error.
(** Running the client stubs, when what comes back is what the server stub made of the request (with tag t put into it):
    the call returns what the file server's method returned. *)
Theorem C57_call : forall X St (W : outside X) (Ws : outside St) (ns : NineServer St), method Ws = ns_method ns ->
  forall d m t s s' r spq, fitsT m -> t < 65536 -> invoke ns s m = NSOk s' r -> fitsR r ->
  exists out spo, run Ws genout (S (S d)) (srv_name (ttype m)) [VBuf] (Buf (skipn 5 (CodecSpec.frame (fst (wireT m)) t (snd (wireT m)))) spq) s = Ret [VNil] (Buf out spo) s' /\
  forall b x x' sp, recv W (send W (CodecSpec.frame (fst (wireT m)) 0 (snd (wireT m))) x) = (Buf out sp, x') ->
  exists b', run W genout (S (S d)) (call_name (ttype m)) (valuesT m) b x = Ret (also (valuesR r) [VErr None]) b' x'.
Proof. exact @run_rpc_ok. Qed.
Print Assumptions C57_call.
Theorem C57_call_error : forall X St (W : outside X) (Ws : outside St) (ns : NineServer St), method Ws = ns_method ns ->
  forall d m t s s' err spq, fitsT m -> t < 65536 -> invoke ns s m = NSErr s' err -> short err ->
  exists out spo, run Ws genout (S (S d)) (srv_name (ttype m)) [VBuf] (Buf (skipn 5 (CodecSpec.frame (fst (wireT m)) t (snd (wireT m)))) spq) s = Ret [VNil] (Buf out spo) s' /\
  forall b x x' sp, recv W (send W (CodecSpec.frame (fst (wireT m)) 0 (snd (wireT m))) x) = (Buf out sp, x') ->
  exists b' z, run W genout (S (S d)) (call_name (ttype m)) (valuesT m) b x = Ret (also z [VErr (Some err)]) b' x'.
Proof. exact @run_rpc_err. Qed.
Print Assumptions C57_call_error.
(** From the text alone, without any of the lemmas: the file is parsed, a walk is encoded and decoded again. *)
Definition no_outside : outside unit := mkOutside unit (fun _ => []) (fun _ _ => []) (fun _ _ _ => None) (fun _ x => x) (fun x => (Buf [] [], x)) false 0.
Example C57_case : match parse (concat GenoutText.genout_text) with
  | Some p =>
      match run no_outside p 5 (str "MarshalTwalkPkt") [VBuf; VU 16 7; VU 32 1; VU 32 2; VList [VStr (str "usr"); VStr (str "glenda")]] (Buf (str "old") []) tt with
      | Ret [] (Buf out _) _ =>
          out = [x1e; x00; x00; x00; x6e; x07; x00; x01; x00; x00; x00; x02; x00; x00; x00; x02; x00] ++ [x03; x00] ++ str "usr" ++ [x06; x00] ++ str "glenda" /\
          run no_outside p 5 (str "UnmarshalTwalkPkt") [VBuf] (Buf (skipn 5 out) []) tt =
          Ret [VU 32 1; VU 32 2; VList [VStr (str "usr"); VStr (str "glenda")]; VU 16 7; VErr None] (Buf [] []) tt
      | _ => False
      end
  | None => False
  end.
Proof. vm_compute. split; reflexivity. Qed.
