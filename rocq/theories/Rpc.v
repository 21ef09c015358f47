(** The two halves of a client call (the CallT functions of genout.go), gathered into tables by message kind, and
    the tag that the client's IO goroutine puts into the request. *)
From Verif Require Import Base GoBuf CodecPrim Types Msgs Codec StubPrim Stubs.

(** client.go:133-134: r.b[5] = uint8(t); r.b[6] = uint8(t >> 8) *)
Definition set_tag (t : N) (b : bytes) : bytes :=
  firstn 5 b ++ [u8 t; u8 (N.shiftr t 8)] ++ skipn 7 b.

(** genout.go, the CallT functions, first halves (lines at each definition in Stubs.v). *)
Definition call_request (m : tmsg) : bytes :=
  match m with
  | MTversion (mkTversionPkt a b) => CallTversion_request a b
  | MTattach (mkTattachPkt a b c d) => CallTattach_request a b c d
  | MTflush (mkTflushPkt a) => CallTflush_request a
  | MTwalk (mkTwalkPkt a b c) => CallTwalk_request a b c
  | MTopen (mkTopenPkt a b) => CallTopen_request a b
  | MTcreate (mkTcreatePkt a b c d) => CallTcreate_request a b c d
  | MTread (mkTreadPkt a b c) => CallTread_request a b c
  | MTwrite (mkTwritePkt a b c) => CallTwrite_request a b c
  | MTclunk (mkTclunkPkt a) => CallTclunk_request a
  | MTremove (mkTremovePkt a) => CallTremove_request a
  | MTstat (mkTstatPkt a) => CallTstat_request a
  | MTwstat (mkTwstatPkt a b) => CallTwstat_request a b
  end.
Definition cmap {A B} (f : A -> B) (r : callres A) : callres B :=
  match r with CallRet a e => CallRet (f a) e | CallPanic => CallPanic end.
(** genout.go, the CallT functions, second halves: what the call for request m returns when the reply bytes are bb,
    with sp the spare capacity behind them. *)
Definition call_result (m : tmsg) (bb sp : bytes) : callres rmsg :=
  match m with
  | MTversion _ => cmap MRversion (CallTversion_result bb sp)
  | MTattach _ => cmap MRattach (CallTattach_result bb sp)
  | MTflush _ => cmap MRflush (CallTflush_result bb sp)
  | MTwalk _ => cmap MRwalk (CallTwalk_result bb sp)
  | MTopen _ => cmap MRopen (CallTopen_result bb sp)
  | MTcreate _ => cmap MRcreate (CallTcreate_result bb sp)
  | MTread _ => cmap MRread (CallTread_result bb sp)
  | MTwrite _ => cmap MRwrite (CallTwrite_result bb sp)
  | MTclunk _ => cmap MRclunk (CallTclunk_result bb sp)
  | MTremove _ => cmap MRremove (CallTremove_result bb sp)
  | MTstat _ => cmap MRstat (CallTstat_result bb sp)
  | MTwstat _ => cmap MRwstat (CallTwstat_result bb sp)
  end.
