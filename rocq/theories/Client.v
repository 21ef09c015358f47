(** Model of protocol/client.go: the client's goroutines as a transition system. *)
From Verif Require Import Base GoBuf CodecPrim Types Codec Server Rpc.

(** protocol.go:90-95: NOTAG, NumTags = 1<<16 - 2. *)
Definition NOTAG : N := 65535.
Definition NOFID : N := 4294967295.
Definition NumTags : nat := N.to_nat 65534.

(** One call of a CallT function (genout.go, e.g. 173-192), as seen by the rest of the client.  Calls are numbered; a
    number stands for the RPCCall and its Reply channel. q: the marshalled request. *)
Inductive caller :=
| CIdle                      (* not started *)
| CSend (q : bytes)          (* before c.FromClient <- &RPCCall{...} *)
| CWait (q : bytes)          (* at bb := <-r *)
| CDone (q r : bytes).       (* got reply bytes r *)

(** client.go:124-146, the sending goroutine. *)
Inductive sender :=
| SIdle                                  (* at r := <-c.FromClient *)
| SCall (c : nat) (q : bytes)            (* at t := <-c.Tags *)
| STagged (c : nat) (t : N) (q : bytes)  (* tag in r.b, before c.RPC[int(t)-1] = r *)
| SSlotted (c : nat) (t : N) (q : bytes). (* before c.ToNet.Write(r.b) *)

(** client.go:77-121, readNetPackets. *)
Inductive reader :=
| RRead                 (* reading the next packet *)
| RHave (b : bytes)     (* at c.FromServer <- ... *)
| RClosed               (* returned; FromServer is closed *)
| RGone.                (* client.go:78-84: FromNet was nil; FromServer stays open *)

(** client.go:148-168, the loop of IO. *)
Inductive recv :=
| VWait                                   (* at r := <-c.FromServer *)
| VHave (b : bytes)                       (* before rrr := c.RPC[t-1] *)
| VDoomed                                 (* about to panic *)
| VDeliver (b : bytes) (t : N) (c : nat)  (* at rrr.Reply <- r.b *)
| VReturn (t : N).                        (* at c.Tags <- t *)

(** client.go:25-36.  Simplifications: Msize is not used by the client; Dead is read only by readNetPackets, and
    written when it returns or just before log.Fatalf (it may then stop reading before the process is gone: [cs_eof] can always happen); a Trace function, if there is one, returns.
    [user]: tags taken with GetTag; [fids]: what the GetFID calls returned so far, in order. *)
Record cst := mkC {
  tags : list N;                  (* buffered channel of NumTags *)
  fid : N;
  rpc : N -> option nat;          (* c.RPC[t-1] *)
  queue : list (nat * bytes);     (* FromClient, buffered channel of NumTags *)
  callers : nat -> caller;
  snd_ : sender;
  rdr : reader;
  rcv : recv;
  user : list N;
  fids : list N;
  crashed : bool                  (* the process died: panic or log.Fatalf *)
}.
(** client.go:38-57 *)
Definition all_tags : list N := map N.of_nat (seq 1 NumTags).
Definition init (hasnet : bool) : cst :=
  mkC all_tags 1 (fun _ => None) [] (fun _ => CIdle) SIdle (if hasnet then RRead else RGone) VWait [] [] false.

Definition upd {A} (f : nat -> A) (k : nat) (v : A) : nat -> A := fun x => if Nat.eqb x k then v else f x.
Definition updN {A} (f : N -> A) (k : N) (v : A) : N -> A := fun x => if N.eqb x k then v else f x.

(** client.go:153: t := Tag(r.b[5]) | Tag(r.b[6])<<8 *)
Definition tag_of (b : bytes) : N :=
  N.lor (b2n (nth 5 b x00)) (N.shiftl (b2n (nth 6 b x00)) 8 mod 65536).

Inductive lbl :=
| LTau
| LStart (c : nat) (q : bytes)
| LWrite (c : nat) (q : bytes)     (* request of call c goes to the network *)
| LRead (b : bytes)                (* a packet has been read from the network *)
| LEof                             (* reading failed *)
| LDone (c : nat) (r : bytes)      (* call c gets its reply *)
| LTag (t : N)                     (* GetTag returns *)
| LFid (f : N)                     (* GetFID returns *)
| LFatal                           (* a write fails; log.Fatalf *)
| LCrash.                          (* a panic *)

Definition crash (s : cst) : cst :=
  mkC (tags s) (fid s) (rpc s) (queue s) (callers s) (snd_ s) (rdr s) (rcv s) (user s) (fids s) true.

(** client.go:150-164 on packet b; [tr]: whether a Trace function is set (163 and 165 call it without a test). *)
Definition receive (tr : bool) (s : cst) (b : bytes) : recv :=
  let t := tag_of b in
  if t <? 1 then VDoomed else
  if N.of_nat NumTags <=? t - 1 then VDoomed else
  if tr then
    match rpc s t with
    | None => VDoomed   (* rrr is nil *)
    | Some c => VDeliver b t c
    end
  else VDoomed.

Inductive cstep (tr : bool) (s : cst) : lbl -> cst -> Prop :=
(* genout.go CallT..: a new call; a marshalled request has at least seven bytes *)
| cs_start c q : crashed s = false -> callers s c = CIdle -> (7 <= List.length q)%nat ->
    cstep tr s (LStart c q) (mkC (tags s) (fid s) (rpc s) (queue s) (upd (callers s) c (CSend q)) (snd_ s) (rdr s) (rcv s) (user s) (fids s) false)
(* c.FromClient <- ... *)
| cs_enqueue c q : crashed s = false -> callers s c = CSend q -> (List.length (queue s) < NumTags)%nat ->
    cstep tr s LTau (mkC (tags s) (fid s) (rpc s) (queue s ++ [(c, q)]) (upd (callers s) c (CWait q)) (snd_ s) (rdr s) (rcv s) (user s) (fids s) false)
(* client.go:126 *)
| cs_take c q qs : crashed s = false -> snd_ s = SIdle -> queue s = (c, q) :: qs ->
    cstep tr s LTau (mkC (tags s) (fid s) (rpc s) qs (callers s) (SCall c q) (rdr s) (rcv s) (user s) (fids s) false)
(* client.go:127-134 *)
| cs_tag c q t ts : crashed s = false -> snd_ s = SCall c q -> tags s = t :: ts ->
    cstep tr s LTau (mkC ts (fid s) (rpc s) (queue s) (callers s) (STagged c t (set_tag t q)) (rdr s) (rcv s) (user s) (fids s) false)
(* client.go:138 *)
| cs_slot c t q : crashed s = false -> snd_ s = STagged c t q ->
    cstep tr s LTau (mkC (tags s) (fid s) (updN (rpc s) t (Some c)) (queue s) (callers s) (SSlotted c t q) (rdr s) (rcv s) (user s) (fids s) false)
(* client.go:142 *)
| cs_write c t q : crashed s = false -> snd_ s = SSlotted c t q ->
    cstep tr s (LWrite c q) (mkC (tags s) (fid s) (rpc s) (queue s) (callers s) SIdle (rdr s) (rcv s) (user s) (fids s) false)
(* client.go:142-145: the write fails *)
| cs_fatal c t q : crashed s = false -> snd_ s = SSlotted c t q -> cstep tr s LFatal (crash s)
(* client.go:90-113: a packet; its first seven bytes were read in one piece, the rest copied (see [packet] below) *)
| cs_read b : crashed s = false -> rdr s = RRead -> (7 <= List.length b)%nat ->
    cstep tr s (LRead b) (mkC (tags s) (fid s) (rpc s) (queue s) (callers s) (snd_ s) (RHave b) (rcv s) (user s) (fids s) false)
(* client.go:96-100, 108-112: a short read or an error; deferred close(c.FromServer) *)
| cs_eof : crashed s = false -> rdr s = RRead ->
    cstep tr s LEof (mkC (tags s) (fid s) (rpc s) (queue s) (callers s) (snd_ s) RClosed (rcv s) (user s) (fids s) false)
(* client.go:114 meets 149 (unbuffered channel) *)
| cs_pass b : crashed s = false -> rdr s = RHave b -> rcv s = VWait ->
    cstep tr s LTau (mkC (tags s) (fid s) (rpc s) (queue s) (callers s) (snd_ s) RRead (VHave b) (user s) (fids s) false)
(* client.go:150-164 *)
| cs_lookup b : crashed s = false -> rcv s = VHave b ->
    cstep tr s LTau (mkC (tags s) (fid s) (rpc s) (queue s) (callers s) (snd_ s) (rdr s) (receive tr s b) (user s) (fids s) false)
(* client.go:158, 161, 163 or 166 (nil dereference) *)
| cs_doomed : crashed s = false -> rcv s = VDoomed -> cstep tr s LCrash (crash s)
(* client.go:149-153 on the closed channel: r is nil, r.b panics *)
| cs_closed : crashed s = false -> rdr s = RClosed -> rcv s = VWait -> cstep tr s LCrash (crash s)
(* client.go:166 meets bb := <-r of call c (unbuffered channel) *)
| cs_deliver b t c q : crashed s = false -> rcv s = VDeliver b t c -> callers s c = CWait q ->
    cstep tr s (LDone c b) (mkC (tags s) (fid s) (rpc s) (queue s) (upd (callers s) c (CDone q b)) (snd_ s) (rdr s) (VReturn t) (user s) (fids s) false)
(* client.go:167 *)
| cs_return t : crashed s = false -> rcv s = VReturn t -> (List.length (tags s) < NumTags)%nat ->
    cstep tr s LTau (mkC (tags s ++ [t]) (fid s) (rpc s) (queue s) (callers s) (snd_ s) (rdr s) VWait (user s) (fids s) false)
(* client.go:60-68 *)
| cs_gettag t ts : crashed s = false -> tags s = t :: ts ->
    cstep tr s (LTag t) (mkC ts (fid s) (rpc s) (queue s) (callers s) (snd_ s) (rdr s) (rcv s) (t :: user s) (fids s) false)
(* client.go:73-75: FID(atomic.AddUint64(&c.FID, 1)), a 32-bit FID from a 64-bit counter *)
| cs_getfid : crashed s = false ->
    let n := (fid s + 1) mod 18446744073709551616 in
    cstep tr s (LFid (n mod 4294967296))
      (mkC (tags s) n (rpc s) (queue s) (callers s) (snd_ s) (rdr s) (rcv s) (user s) (fids s ++ [n mod 4294967296]) false).

(** Executions, with the labels in order. *)
Inductive csteps (tr : bool) (s : cst) : list lbl -> cst -> Prop :=
| css_nil : csteps tr s [] s
| css_snoc ls s1 l s2 : csteps tr s ls s1 -> cstep tr s1 l s2 -> csteps tr s (ls ++ [l]) s2.

(** * Packets, client.go:86-113 *)
(** What one turn of the loop of readNetPackets makes of the reads on the connection: a packet, or None: it returns.
    (bytes.NewBuffer(l), io.Copy: the header stays in front of the body.) *)
Definition packet (evs : list rev) : option (bytes * list rev) :=
  match net_read 7 evs with
  | RdEOF | RdFail => None
  | RdData l evs =>
      match l with
      | [l0; l1; l2; l3; l4; l5; l6] =>
          let sz := b2n l0 + N.shiftl (b2n l1) 8 + N.shiftl (b2n l2) 16 + N.shiftl (b2n l3) 24 in
          match copy_limit (N.to_nat (sz - 7)) evs with
          | None => None
          | Some (body, evs) => Some (l ++ body, evs)
          end
      | _ => None
      end
  end.

(** All packets readNetPackets passes on before it returns. Every turn uses seven bytes, so the fuel is enough. *)
Fixpoint packets_n (fuel : nat) (evs : list rev) : list bytes :=
  match fuel with
  | O => []
  | S fuel => match packet evs with None => [] | Some (b, evs) => b :: packets_n fuel evs end
  end.
Definition packets (evs : list rev) : list bytes := packets_n (S (pending evs)) evs.
