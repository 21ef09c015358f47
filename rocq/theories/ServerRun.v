(** Running the text of server.go: a connection. *)
From Verif Require Import Base GoBuf CodecPrim Types Codec StubPrim Stubs GoSyntax Ufs GoRun GoFmt GoProg GoWp Server.

(** * The world of one connection *)
(** What the connection will still deliver, the blocks written to it, is it open, the state of the file server, how many messages have
    been answered, the calls of the trace function, the goroutines started. *)
Record cworld (St : Type) := mkCW { w_in : list rev; w_out : list bytes; w_open : bool; w_ns : St; w_turn : nat; w_traced : list (list value);
                                    w_started : list (callee * list value) }.
Arguments mkCW {St}. Arguments w_in {St}. Arguments w_out {St}. Arguments w_open {St}. Arguments w_ns {St}. Arguments w_turn {St}. Arguments w_traced {St}. Arguments w_started {St}.

(** The generated functions that Dispatch calls, as modelled in Stubs.v (genout.go computes them: C57).  They always return a nil error. *)
Definition stubs {St} : list (bytes * (NineServer St -> St -> buf -> srvres St)) :=
  [(str "Server.SrvRversion", SrvRversion); (str "Server.SrvRattach", SrvRattach); (str "Server.SrvRflush", SrvRflush); (str "Server.SrvRwalk", SrvRwalk);
   (str "Server.SrvRopen", SrvRopen); (str "Server.SrvRcreate", SrvRcreate); (str "Server.SrvRclunk", SrvRclunk); (str "Server.SrvRstat", SrvRstat);
   (str "Server.SrvRwstat", SrvRwstat); (str "Server.SrvRremove", SrvRremove); (str "Server.SrvRread", SrvRread); (str "Server.SrvRwrite", SrvRwrite)].
Definition read_error : oserr := OSErr (str "read error").
Definition write_error : oserr := OSErr (str "write error").

Section Conn.
Context {St : Type} (ns : NineServer St) (e : env) (remote : bytes) (names : N).
Notation M := (memory (cworld St)).
(** The bytes of a []byte in memory. *)
Definition slice (s : M) (v : value) : option bytes :=
  match v with
  | VSl a o n => match cells s a with Some (VArr b) => Some (firstn (N.to_nat n) (skipn (N.to_nat o) b)) | _ => None end
  | VBytes b => Some b
  | _ => None
  end.
Definition upd_in (w : cworld St) (r : list rev) : cworld St := mkCW r (w_out w) (w_open w) (w_ns w) (w_turn w) (w_traced w) (w_started w).
Definition upd_ns (w : cworld St) (x : St) : cworld St := mkCW (w_in w) (w_out w) (w_open w) x (w_turn w) (w_traced w) (w_started w).
(** Functions of other packages and of genout.go.
    A read or write on a connection that has been closed has no answer.  The buffer made from l[5:] shares its memory with l, but
    io.Copy moves it elsewhere before anything else uses it, and l[5], l[6] are not looked at again.  The trace function is assumed not to change anything
    that server.go can see. *)
Definition net_call (f : bytes) (args : list value) (s : M) : reply (cworld St) :=
  let is x := beq f x in
  let w := rest s in
  match args with
  | VObj _ _ :: args' =>
      if is (str "net.Conn.Read") then
        match args' with
        | [VSl a o n] =>
            match w_open w, cells s a with
            | true, Some (VArr z) =>
                match net_read (N.to_nat n) (w_in w) with
                | RdEOF => Answer [VI 64 0; VErr EOF] s
                | RdFail => Answer [VI 64 0; VErr read_error] s
                | RdData b r => Answer [VI 64 (Z.of_N (blen b)); VNil] (mkMem (put_cell (cells s) a (VArr (firstn (N.to_nat o) z ++ overlay (skipn (N.to_nat o) z) b))) (free s) (upd_in w r))
                end
            | _, _ => NoAnswer
            end
        | _ => NoAnswer
        end
      else if is (str "net.Conn.Write") then
        match args' with
        | [v] =>
            match w_open w, slice s v with
            | true, Some b =>
                match e_write e (w_turn w) with
                | None => Answer [VI 64 (Z.of_N (blen b)); VNil] (with_rest s (mkCW (w_in w) (w_out w ++ [b]) true (w_ns w) (S (w_turn w)) (w_traced w) (w_started w)))
                | Some k => Answer [VI 64 (Z.of_nat k); VErr write_error] (with_rest s (mkCW (w_in w) (w_out w ++ [firstn k b]) true (w_ns w) (S (w_turn w)) (w_traced w) (w_started w)))
                end
            | _, _ => NoAnswer
            end
        | _ => NoAnswer
        end
      else if is (str "net.Conn.Close") then
        Answer [VNil] (with_rest s (mkCW (w_in w) (w_out w) false (w_ns w) (w_turn w) (w_traced w) (w_started w)))
      else if is (str "net.Conn.RemoteAddr") then Answer [VObj (str "net.Addr") 0] s
      else if is (str "net.Addr.String") then Answer [VStr remote] s
      else if is (str "Tracer") then
        Answer [] (with_rest s (mkCW (w_in w) (w_out w) (w_open w) (w_ns w) (w_turn w) (w_traced w ++ [args']) (w_started w)))
      else if is (str "NsCreator") then Answer [VObj (str "NineServer") 0] s
      else if is (str "io.LimitReader") then
        match args' with [VI _ n] => Answer [VStruct (str "io.LimitedReader") [(str "N", VI 64 n)]] s | _ => NoAnswer end
      else NoAnswer
  | [VPtr _ a p] =>
      match cells s a with
      | Some (VBuf b) =>
          if is (str "bytes.Buffer.Len") then Answer [VI 64 (Z.of_N (buf_len b))] s
          else if is (str "bytes.Buffer.Bytes") then Answer [VBytes (unread b)] s
          else NoAnswer
      | _ => NoAnswer
      end
  | [VPtr _ a p; VStruct _ [(_, VI _ n)]] =>
      if is (str "io.Copy") then
        match cells s a with
        | Some (VBuf b) =>
            if w_open w then
              match copy_limit (Z.to_nat n) (w_in w) with
              | None => Answer [VI 64 0; VErr read_error] s
              | Some (c, r) => Answer [VI 64 (Z.of_N (blen c)); VNil] (mkMem (put_cell (cells s) a (VBuf (Buf (unread b ++ c) (e_spare e (w_turn w))))) (free s) (upd_in w r))
              end
            else NoAnswer
        | _ => NoAnswer
        end
      else NoAnswer
  | [VPtr _ a p; VPtr _ a' p'] =>
      match assoc f stubs, cells s a' with
      | Some g, Some (VBuf b) =>
          match g ns (w_ns w) b with
          | SrvReply x out => Answer [VNil] (mkMem (put_cell (cells s) a' (VBuf (Buf out []))) (free s) (upd_ns w x))
          | SrvPanic => Crash
          end
      | _, _ => NoAnswer
      end
  | [VPtr _ a p; VU _ tag; VStr m] =>
      if is (str "MarshalRerrorPkt") then
        match cells s a with Some (VBuf b) => Answer [] (with_cell s a (VBuf (Buf (MarshalRerrorPkt tag m) []))) | _ => NoAnswer end
      else NoAnswer
  | [VPtr _ a p; VStr m] =>
      if is (str "ServerError") then
        match cells s a with Some (VBuf b) => Answer [] (with_cell s a (VBuf (Buf (ServerError b m) []))) | _ => NoAnswer end
      else NoAnswer
  | [VSl a o n] =>
      if is (str "bytes.NewBuffer") then
        match slice s (VSl a o n) with Some b => Answer [VPtr (str "bytes.Buffer") (free s) []] (with_new s (VBuf (Buf b []))) | None => NoAnswer end
      else NoAnswer
  | [VI _ z] => if is (str "makebytes") then Answer [VSl (free s) 0 (Z.to_N z)] (with_new s (VArr (repeat x00 (Z.to_nat z)))) else NoAnswer
  | VStr p :: args' =>
      if is (str "fmt.Sprintf") then match format p args' with Some t => Answer [VStr t] s | None => NoAnswer end
      else if is (str "fmt.Errorf") then match format p args' with Some t => Answer [VErr (OSErr t)] s | None => NoAnswer end
      else NoAnswer
  | _ => NoAnswer
  end.
Definition outside (r : req) (s : M) : reply (cworld St) :=
  match r with
  | RVar x => if beq x (str "RPCNames") then Answer [VPtr [] names []] s else NoAnswer
  | RExt f args => net_call f args s
  | RChan n => Answer [VObj (str "chan") 0] s
  | RGo f args => let w := rest s in Answer [] (with_rest s (mkCW (w_in w) (w_out w) (w_open w) (w_ns w) (w_turn w) (w_traced w) (w_started w ++ [(f, args)])))
  | _ => NoAnswer
  end.
End Conn.
(** The map RPCNames in memory. *)
Fixpoint lookup_n (l : list (N * value)) (k : N) : option value := match l with [] => None | (x, v) :: l => if k =? x then Some v else lookup_n l k end.
Definition v_names : value := VMap (VStr []) (lookup_n (match RPCNames_literal with Some l => l | None => [] end)).
(** server.go:40-63, the structs Server and conn *)
Definition v_server (nine : value) (versioned : bool) : value :=
  VStruct (str "Server") [(str "NS", nine); (str "D", VFun (str "Dispatch")); (str "Versioned", VBool versioned)].
Definition v_conn (l s : N) (rwc : value) (addr : bytes) (chan : value) (dead : bool) : value :=
  VStruct (str "conn") [(str "listener", VPtr (str "Listener") l []); (str "server", VPtr (str "Server") s []); (str "rwc", rwc); (str "remoteAddr", VStr addr);
                        (str "replies", chan); (str "dead", VBool dead)].
Definition v_listener (create : value) (addr : bytes) (trace map : value) : value :=
  VStruct (str "Listener") [(str "nsCreator", create); (str "Addr", VStr addr); (str "Trace", trace); (str "mu", VStruct (str "sync.Mutex") []); (str "listeners", map)].
