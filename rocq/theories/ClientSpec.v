(** The world around a client: a server that answers, callers that wait for each other. *)
From Verif Require Import Base GoBuf CodecPrim Types Codec Msgs CodecSpec StubPrim Server ServerSpec Rpc Client.

(** Tags a call may have. *)
Definition good_tag (t : N) : Prop := 1 <= t <= 65534.
(** Call c has been assigned tag t (it is in the request bytes) and has not received its reply. *)
Definition holds (s : cst) (c : nat) (t : N) : Prop :=
  (exists q, callers s c = CWait q) /\ ((exists q, snd_ s = STagged c t q) \/ rpc s t = Some c).

(** * A server that answers every request once, with its tag, in any order *)
(** [srv q a]: a is an answer to the request bytes q. *)
Definition answers_with_tag (srv : bytes -> bytes -> Prop) : Prop :=
  forall q a, srv q a -> (7 <= List.length a)%nat /\ tag_of a = tag_of q.
(** Client and server: requests written and not yet answered, answers not yet read by the client, and a log of
    which call was answered how. *)
Record hst := mkH {
  cl : cst;
  unans : list (nat * bytes);
  infl : list bytes;
  answered : list (nat * (bytes * bytes))
}.
Definition hinit : hst := mkH (init true) [] [] [].
Inductive hstep (tr : bool) (srv : bytes -> bytes -> Prop) (h : hst) : lbl -> hst -> Prop :=
(* the client does anything but read, lose its connection, or fail to write *)
| h_client l s' : cstep tr (cl h) l s' -> (forall c q, l <> LWrite c q) -> (forall b, l <> LRead b) -> l <> LEof -> l <> LFatal ->
    hstep tr srv h l (mkH s' (unans h) (infl h) (answered h))
| h_write c q s' : cstep tr (cl h) (LWrite c q) s' ->
    hstep tr srv h (LWrite c q) (mkH s' (unans h ++ [(c, q)]) (infl h) (answered h))
(* the server answers any of the requests *)
| h_answer u1 c q u2 a : unans h = u1 ++ (c, q) :: u2 -> srv q a ->
    hstep tr srv h LTau (mkH (cl h) (u1 ++ u2) (infl h ++ [a]) ((c, (q, a)) :: answered h))
| h_read b rest s' : infl h = b :: rest -> cstep tr (cl h) (LRead b) s' ->
    hstep tr srv h (LRead b) (mkH s' (unans h) rest (answered h)).
Inductive hreach (tr : bool) (srv : bytes -> bytes -> Prop) : hst -> Prop :=
| hr_init : hreach tr srv hinit
| hr_step h l h' : hreach tr srv h -> hstep tr srv h l h' -> hreach tr srv h'.

(** * A finite set of calls 0 .. n-1 *)
(** Call c may be started when the calls [pre c] are done (a goroutine that makes several calls makes them one after
    the other; goroutines may also wait for each other). *)
Definition done (h : hst) (c : nat) : Prop := exists q r, callers (cl h) c = CDone q r.
Definition wstep (srv : bytes -> bytes -> Prop) (n : nat) (pre : nat -> list nat) (h h' : hst) : Prop :=
  exists l, hstep true srv h l h' /\
    match l with
    | LTag _ | LFid _ => False
    | LStart c _ => (c < n)%nat /\ forall p, In p (pre c) -> done h p
    | _ => True
    end.
(** [wsteps k]: k steps from the start. *)
Inductive wsteps (srv : bytes -> bytes -> Prop) (n : nat) (pre : nat -> list nat) : nat -> hst -> Prop :=
| ws_0 : wsteps srv n pre 0 hinit
| ws_S k h h' : wsteps srv n pre k h -> wstep srv n pre h h' -> wsteps srv n pre (S k) h'.

(** * The file server as the answering side *)
(** a is the answer of file server ns, in whatever state it is, to a well-formed request. *)
Definition answered_by {St} (ns : NineServer St) (q a : bytes) : Prop :=
  exists t m s s', t < 65536 /\ fitsT m /\ q = marshalT t m /\
    (exists r, invoke ns s m = NSOk s' r /\ fitsR r /\ a = marshalR t r \/
     exists err, invoke ns s m = NSErr s' err /\ short err /\ a = marshalR t (MRerror (mkRerrorPkt err))).
