(** Model of protocol/server.go: Dispatch and the per-connection serve loop. *)
From Verif Require Import Base GoBuf CodecPrim Types Codec StubPrim Stubs.

(** server.go:40-46, type Server: the Versioned flag and the state of the file server NS.
    (The dispatcher field D is always Dispatch, server.go:83.) *)
Record srv (St : Type) := mkSrv { Versioned : bool; NS : St }.
Arguments mkSrv {St}. Arguments Versioned {St}. Arguments NS {St}.

(** A stub run on the NS part of the state. *)
Definition on_ns {St} (v : bool) (r : srvres St) : srvres (srv St) :=
  match r with
  | SrvReply s out => SrvReply (mkSrv v s) out
  | SrvPanic => SrvPanic
  end.

(** server.go:257 and 261: fmt.Sprintf("Dispatch: %v not allowed before Tversion", RPCNames[t]) *)
Definition msg_before_version (t : N) : bytes :=
  str "Dispatch: " ++ RPCNames t ++ str " not allowed before Tversion".
(** server.go:293 *)
Definition msg_not_supported (t : N) : bytes := str "Dispatch: " ++ RPCNames t ++ str " not supported".

(** server.go:265-294: the second switch *)
Definition dispatch_switch {St} (ns : NineServer St) (v : bool) (s : St) (b : buf) (t : N) : srvres (srv St) :=
  if t =? Tversion_t then on_ns v (SrvRversion ns s b) else
  if t =? Tattach_t then on_ns v (SrvRattach ns s b) else
  if t =? Tflush_t then on_ns v (SrvRflush ns s b) else
  if t =? Twalk_t then on_ns v (SrvRwalk ns s b) else
  if t =? Topen_t then on_ns v (SrvRopen ns s b) else
  if t =? Tcreate_t then on_ns v (SrvRcreate ns s b) else
  if t =? Tclunk_t then on_ns v (SrvRclunk ns s b) else
  if t =? Tstat_t then on_ns v (SrvRstat ns s b) else
  if t =? Twstat_t then on_ns v (SrvRwstat ns s b) else
  if t =? Tremove_t then on_ns v (SrvRremove ns s b) else
  if t =? Tread_t then on_ns v (SrvRread ns s b) else
  if t =? Twrite_t then on_ns v (SrvRwrite ns s b) else
  SrvReply (mkSrv v s) (ServerError b (msg_not_supported t)).

(** server.go:251-295 Dispatch.  The returned error only goes to the log (server.go:232-234), so
    the result is the server state and the contents of the buffer. [d[0]], [d[1]] panic when
    the buffer is shorter than two bytes. *)
Definition Dispatch {St} (ns : NineServer St) (st : srv St) (b : buf) (t : N) : srvres (srv St) :=
  if t =? Tversion_t then dispatch_switch ns true (NS st) b t else
  if Versioned st then dispatch_switch ns true (NS st) b t else
  match unread b with
  | d0 :: d1 :: _ =>
      SrvReply st (MarshalRerrorPkt (N.lor (b2n d0) (N.shiftl (b2n d1) 8 mod 65536)) (msg_before_version t))
  | _ => SrvPanic
  end.

(** * The transport *)

(** What the reads on a connection find: chunks of bytes as they arrive, or a read error.
    The end of the list is end of file. Simplification: a read never returns both data and an
    error, which holds for TCP connections. *)
Inductive rev := Chunk (bs : bytes) | RdErr.

Inductive rdres := RdEOF | RdFail | RdData (bs : bytes) (rest : list rev).
(** [c.rwc.Read(l)] with len(l) = n: what is available now, at most n bytes. *)
Definition net_read (n : nat) (evs : list rev) : rdres :=
  match evs with
  | [] => RdEOF
  | RdErr :: _ => RdFail
  | Chunk c :: r =>
      RdData (firstn n c) (match skipn n c with [] => r | c' => Chunk c' :: r end)
  end.

(** [io.Copy(b, io.LimitReader(c.rwc, n))]: reads until n bytes have come, or end of file (no error!),
    or a read error (None).  A negative limit reads nothing, as 0 does.
    Simplification: memory exhaustion in Buffer.grow (up to 4 GiB here) is not modelled. *)
Fixpoint copy_limit (n : nat) (evs : list rev) : option (bytes * list rev) :=
  match n, evs with
  | O, _ => Some ([], evs)
  | S _, [] => Some ([], [])
  | S _, RdErr :: _ => None
  | S _, Chunk c :: r =>
      match skipn n c with
      | [] => match copy_limit (n - List.length c) r with
              | Some (bs, r') => Some (c ++ bs, r')
              | None => None
              end
      | c' => Some (firstn n c, Chunk c' :: r)
      end
  end.

(** Things outside the program, per message number: the memory behind the message buffer
    (contents and size; Buffer.ReadFrom leaves at least 512 bytes of it), and whether the
    write of the reply fails and after how many bytes. *)
Record env := mkEnv { e_spare : nat -> bytes; e_write : nat -> option nat }.

(** * server.go:201-244 serve *)

(** One turn of the loop server.go:213-243. IDead: the loop ends (c.dead = true). *)
Inductive iter (St : Type) :=
| INext (st : srv St) (out : bytes) (rest : list rev)
| IDead (st : srv St) (out : option bytes)
| ICrash.
Arguments INext {St}. Arguments IDead {St}. Arguments ICrash {St}.

Definition serve_iter {St} (ns : NineServer St) (e : env) (i : nat) (st : srv St) (evs : list rev) : iter St :=
  match net_read 7 evs with
  | RdEOF | RdFail => IDead st None
  | RdData l evs =>
      match l with
      | [l0; l1; l2; l3; l4; l5; l6] =>
          let sz := b2n l0 + N.shiftl (b2n l1) 8 + N.shiftl (b2n l2) 16 + N.shiftl (b2n l3) 24 in
          let t := b2n l4 in
          match copy_limit (N.to_nat (sz - 7)) evs with
          | None => IDead st None
          | Some (body, evs) =>
              match Dispatch ns st (Buf ([l5; l6] ++ body) (e_spare e i)) t with
              | SrvPanic => ICrash
              | SrvReply st out =>
                  match e_write e i with
                  | Some k => IDead st (Some (firstn k out))
                  | None => INext st out evs
                  end
              end
          end
      | _ => IDead st None
      end
  end.

(** The blocks written to the connection, how it ended, and the state the server was left in. *)
Record run (St : Type) := mkRun { r_out : list bytes; r_crashed : bool; r_st : srv St }.
Arguments mkRun {St}. Arguments r_out {St}. Arguments r_crashed {St}. Arguments r_st {St}.

Fixpoint serve_n {St} (ns : NineServer St) (e : env) (fuel i : nat) (st : srv St) (evs : list rev) : run St :=
  match fuel with
  | O => mkRun [] false st
  | S fuel =>
      match serve_iter ns e i st evs with
      | ICrash => mkRun [] true st
      | IDead st out => mkRun (match out with Some o => [o] | None => [] end) false st
      | INext st out evs =>
          let r := serve_n ns e fuel (S i) st evs in
          mkRun (out :: r_out r) (r_crashed r) (r_st r)
      end
  end.

(** Number of bytes still to come. *)
Fixpoint pending (evs : list rev) : nat :=
  match evs with
  | [] => 0
  | Chunk c :: r => List.length c + pending r
  | RdErr :: r => pending r
  end.
(** The whole loop, from the i-th message on.  Every turn that goes on consumes seven bytes, so the fuel never runs
    out ([serve_unfold] in ServerLemmas.v). *)
Definition serve_from {St} (ns : NineServer St) (e : env) (i : nat) (st : srv St) (evs : list rev) : run St :=
  serve_n ns e (S (pending evs)) i st evs.
(** server.go:81-93 newConn and server.go:162-170 Accept: a fresh server, not yet versioned. *)
Definition serve {St} (ns : NineServer St) (e : env) (s0 : St) (evs : list rev) : run St :=
  serve_from ns e 0 (mkSrv false s0) evs.
