(** Running the text of client.go: the goroutines of a client, interleaved. *)
From Verif Require Import Base GoBuf CodecPrim Types Codec GoSyntax Ufs GoRun GoFmt GoProg GoWp Server ServerRun Client.

(** * The world of a client *)
(** A channel: its capacity, what is in it, is it closed. *)
Record chan := mkCh { ch_cap : N; ch_buf : list value; ch_closed : bool }.
(** The channels by number, the next free number, what the connection will still deliver, the goroutines started (used for NewClient only). *)
Record nworld := mkNW { w_chans : N -> option chan; w_next : N; w_net : list rev; w_gos : list (callee * list value) }.
Definition put_chan (f : N -> option chan) (n : N) (c : chan) : N -> option chan := fun x => if x =? n then Some c else f x.
Definition set_chan (s : memory nworld) (n : N) (c : chan) : memory nworld :=
  let w := rest s in with_rest s (mkNW (put_chan (w_chans w) n c) (w_next w) (w_net w) (w_gos w)).
Definition v_chan (n : N) : value := VObj (str "chan") n.
(** client.go:25-36; protocol.go:283-290 *)
Definition v_client (tags fc fs : value) (toNet fromNet trace : value) (msize : N) (fid : N) (rpc : list value) (dead : bool) : value :=
  VStruct (str "Client") [(str "Tags", tags); (str "FID", VU 64 fid); (str "RPC", VList rpc); (str "ToNet", toNet); (str "FromNet", fromNet);
                          (str "FromClient", fc); (str "FromServer", fs); (str "Msize", VU 32 msize); (str "Dead", VBool dead); (str "Trace", trace)].
Definition v_call (b : bytes) (reply : N) : value := VStruct (str "RPCCall") [(str "b", VBytes b); (str "Reply", v_chan reply)].
Definition v_reply (b : bytes) : value := VStruct (str "RPCReply") [(str "b", VBytes b)].

Section Client.
(** Where the map RPCNames is; what the option given to NewClient does: an error, or ToNet, FromNet, Trace and Msize. *)
Context (names : N) (opt : oserr + (value * value * value * N)).
Notation M := (memory nworld).

(** Functions of other packages.  Simplifications: the text printed or traced is not looked at, and the trace function changes nothing
    that client.go can see; l and the buffer made from it share their memory in Go, but io.Copy moves the buffer elsewhere when it
    adds to it, and neither is written otherwise. *)
Definition lib_call (f : bytes) (args : list value) (s : M) : reply nworld :=
  let is x := beq f x in
  let w := rest s in
  if is (str "fmt.Sprintf") then match args with VStr p :: vs => Answer [VStr (match format p vs with Some t => t | None => [] end)] s | _ => NoAnswer end
  else if is (str "log.Printf") then Answer [] s
  else if is (str "Tracer") then Answer [] s
  else if is (str "io.ReadCloser.Close") then Answer [VNil] s
  else if is (str "io.LimitReader") then
    match args with [VObj _ _; VI _ n] => Answer [VStruct (str "io.LimitedReader") [(str "N", VI 64 n)]] s | _ => NoAnswer end
  else if is (str "bytes.Buffer.Len") then
    match args with [VPtr _ a []] => match cells s a with Some (VBuf b) => Answer [VI 64 (Z.of_N (buf_len b))] s | _ => NoAnswer end | _ => NoAnswer end
  else if is (str "bytes.Buffer.Bytes") then
    match args with [VPtr _ a []] => match cells s a with Some (VBuf b) => Answer [VBytes (unread b)] s | _ => NoAnswer end | _ => NoAnswer end
  else if is (str "makebytes") then
    match args with [VI _ z] => Answer [VSl (free s) 0 (Z.to_N z)] (with_new s (VArr (repeat x00 (Z.to_nat z)))) | _ => NoAnswer end
  else if is (str "bytes.NewBuffer") then
    match args with
    | [VSl a o n] => match cells s a with
                     | Some (VArr z) => Answer [VPtr (str "bytes.Buffer") (free s) []] (with_new s (VBuf (Buf (firstn (N.to_nat n) (skipn (N.to_nat o) z)) [])))
                     | _ => NoAnswer
                     end
    | _ => NoAnswer
    end
  else if is (str "io.ReadCloser.Read") then
    match args with
    | [VObj _ _; VSl a o n] =>
        match cells s a with
        | Some (VArr z) =>
            match net_read (N.to_nat n) (w_net w) with
            | RdEOF => Answer [VI 64 0; VErr EOF] s
            | RdFail => Answer [VI 64 0; VErr read_error] s
            | RdData b r => Answer [VI 64 (Z.of_N (blen b)); VNil]
                (mkMem (put_cell (cells s) a (VArr (firstn (N.to_nat o) z ++ overlay (skipn (N.to_nat o) z) b))) (free s) (mkNW (w_chans w) (w_next w) r (w_gos w)))
            end
        | _ => NoAnswer
        end
    | _ => NoAnswer
    end
  else if is (str "io.Copy") then
    match args with
    | [VPtr _ a []; VStruct _ [(_, VI _ n)]] =>
        match cells s a with
        | Some (VBuf b) =>
            match copy_limit (Z.to_nat n) (w_net w) with
            | None => Answer [VI 64 0; VErr read_error] s
            | Some (c, r) => Answer [VI 64 (Z.of_N (blen c)); VNil]
                (mkMem (put_cell (cells s) a (VBuf (Buf (unread b ++ c) []))) (free s) (mkNW (w_chans w) (w_next w) r (w_gos w)))
            end
        | _ => NoAnswer
        end
    | _ => NoAnswer
    end
  else if is (str "close") then
    match args with
    | [VObj _ n] => match w_chans w n with Some c => if ch_closed c then Crash else Answer [] (set_chan s n (mkCh (ch_cap c) (ch_buf c) true)) | None => NoAnswer end
    | _ => NoAnswer
    end
  else if is (str "atomic.AddUint64") then
    match args with
    | [VPtr _ a p; VC z] =>
        match cells s a with
        | Some v => match get_path p v with
                    | Some (VU _ n) => let n := (n + const_n z) mod 18446744073709551616 in
                        match set_path p (VU 64 n) v with Some v => Answer [VU 64 n] (with_cell s a v) | None => NoAnswer end
                    | _ => NoAnswer
                    end
        | None => NoAnswer
        end
    | _ => NoAnswer
    end
  else if is (str "ClientOpt") then
    match args with
    | [VObj _ _; VPtr _ a []] =>
        match opt, cells s a with
        | inl e, _ => Answer [VErr e] s
        | inr (toNet, fromNet, trace, msize), Some (VStruct t fs) =>
            Answer [VNil] (with_cell s a (VStruct t (set_field (str "ToNet") toNet (set_field (str "FromNet") fromNet (set_field (str "Trace") trace (set_field (str "Msize") (VU 32 msize) fs))))))
        | _, _ => NoAnswer
        end
    | _ => NoAnswer
    end
  else NoAnswer.
Definition lib (r : req) (s : M) : reply nworld :=
  let w := rest s in
  match r with
  | RVar x => if beq x (str "RPCNames") then Answer [VPtr [] names []] s else NoAnswer
  | RExt f args => lib_call f args s
  | RChan v => match as_z v with
               | Some z => Answer [v_chan (w_next w)] (with_rest s (mkNW (put_chan (w_chans w) (w_next w) (mkCh (Z.to_N z) [] false)) (w_next w + 1) (w_net w) (w_gos w)))
               | None => NoAnswer
               end
  | _ => NoAnswer
  end.
(** Channels for functions that run alone (NewClient, GetTag): a send into a buffer with room, a receive from one that is not empty. *)
Definition lib_new (r : req) (s : M) : reply nworld :=
  let w := rest s in
  match r with
  | RSend (VObj _ n) v =>
      match w_chans w n with
      | Some c => if blen (ch_buf c) <? ch_cap c then Answer [] (set_chan s n (mkCh (ch_cap c) (ch_buf c ++ [v]) (ch_closed c))) else NoAnswer
      | None => NoAnswer
      end
  | RRecv (VObj _ n) =>
      match w_chans w n with
      | Some c => match ch_buf c with v :: b => Answer [v] (set_chan s n (mkCh (ch_cap c) b (ch_closed c))) | [] => NoAnswer end
      | None => NoAnswer
      end
  | RGo f args => Answer [] (with_rest s (mkNW (w_chans w) (w_next w) (w_net w) (w_gos w ++ [(f, args)])))
  | _ => lib r s
  end.

(** * One goroutine *)
(** What can be seen of a request from outside: a packet has been read (what the buffer contains now); FromServer is closed. *)
Definition event (r : req) (vs : list value) (s : M) : lbl :=
  match r with
  | RExt f args =>
      if beq f (str "io.Copy") then
        match args, vs with
        | VPtr _ a [] :: _, [_; VNil] => match cells s a with Some (VBuf b) => LRead (unread b) | _ => LTau end
        | _, _ => LTau
        end
      else if beq f (str "close") then LEof else LTau
  | _ => LTau
  end.
(** A step that needs nothing from outside the machine. *)
Definition quiet (r : res) : option machine :=
  match r with
  | Next m => Some m
  | Branch b m m' => Some (if b then m else m')
  | Split [] m _ => Some m
  | Split (v :: l) _ m => Some (m v l)
  | Maybe (Some v) m => Some (m v)
  | _ => None
  end.
Notation P := protocol_program.
Inductive lstep (m : machine) (s : M) : lbl -> machine -> M -> Prop :=
| l_quiet m' : quiet (step P m) = Some m' -> lstep m s LTau m' s
| l_ask r m' vs s' : step P m = Ask r m' -> answer lib r s = Answer vs s' -> lstep m s (event r vs s') (resume m' vs) s'
(* channels; only FromServer is ever closed, and it is one of pointers *)
| l_recv k n m' c v b : step P m = Ask (RRecv (VObj k n)) m' -> w_chans (rest s) n = Some c -> ch_buf c = v :: b ->
    lstep m s LTau (resume m' [v]) (set_chan s n (mkCh (ch_cap c) b (ch_closed c)))
| l_closed k n m' c : step P m = Ask (RRecv (VObj k n)) m' -> w_chans (rest s) n = Some c -> ch_buf c = [] -> ch_closed c = true ->
    lstep m s LTau (resume m' [VNil]) s
| l_send k n m' c v : step P m = Ask (RSend (VObj k n) v) m' -> w_chans (rest s) n = Some c -> ch_closed c = false -> blen (ch_buf c) < ch_cap c ->
    lstep m s LTau (resume m' []) (set_chan s n (mkCh (ch_cap c) (ch_buf c ++ [v]) false))
(* a write succeeds or not *)
| l_write o b m' : step P m = Ask (RExt (str "io.WriteCloser.Write") [o; VBytes b]) m' -> lstep m s (LWrite 0 b) (resume m' [VI 64 (Z.of_N (blen b)); VNil]) s
| l_fail o b m' z e : step P m = Ask (RExt (str "io.WriteCloser.Write") [o; VBytes b]) m' -> lstep m s LTau (resume m' [VI 64 z; VErr e]) s.
(** The process dies. *)
Inductive ldie (m : machine) (s : M) : lbl -> Prop :=
| d_panic : step P m = Panic -> ldie m s LCrash
| d_index f : step P m = Maybe None f -> ldie m s LCrash
| d_crash r m' : step P m = Ask r m' -> answer lib r s = Crash -> ldie m s LCrash
| d_send k n m' c v : step P m = Ask (RSend (VObj k n) v) m' -> w_chans (rest s) n = Some c -> ch_closed c = true -> ldie m s LCrash
| d_fatal vs m' : step P m = Ask (RExt (str "log.Fatalf") vs) m' -> ldie m s LFatal.

(** * All of them, and those who call the client *)
(** A call of one of the functions of genout.go (C57): it makes an RPCCall with its request and a new channel, sends it on FromClient,
    and receives on the channel. *)
Inductive user :=
| UIdle
| USend (q : bytes) (a n : N)    (* RPCCall in cell a, reply channel n *)
| UWait (q : bytes) (n : N)
| UDone (q r : bytes).
Record gstate := mkG { g_threads : list machine; g_mem : M; g_users : nat -> user; g_dead : bool }.
Fixpoint put_nth {A} (i : nat) (x : A) (l : list A) : list A := match l, i with [], _ => [] | _ :: l, O => x :: l | y :: l, S i => y :: put_nth i x l end.
(** The client is in cell C. *)
Variable C : N.
Definition field (s : M) (f : bytes) : option value := match cells s C with Some v => get_path [SF f] v | None => None end.
Inductive tstep (g : gstate) : lbl -> gstate -> Prop :=
| t_one i m l m' s' : g_dead g = false -> nth_error (g_threads g) i = Some m -> lstep m (g_mem g) l m' s' ->
    tstep g l (mkG (put_nth i m' (g_threads g)) s' (g_users g) false)
| t_die i m l : g_dead g = false -> nth_error (g_threads g) i = Some m -> ldie m (g_mem g) l -> tstep g l (mkG (g_threads g) (g_mem g) (g_users g) true)
| t_go i m f vs m' : g_dead g = false -> nth_error (g_threads g) i = Some m -> step P m = Ask (RGo f vs) m' ->
    tstep g LTau (mkG (put_nth i (resume m' []) (g_threads g) ++ [mkM (CApply f false Now vs) [] [] []]) (g_mem g) (g_users g) false)
(* unbuffered channel: both at once *)
| t_meet i j m1 m2 k k' n v m1' m2' c : g_dead g = false -> i <> j -> nth_error (g_threads g) i = Some m1 -> nth_error (g_threads g) j = Some m2 ->
    step P m1 = Ask (RSend (VObj k n) v) m1' -> step P m2 = Ask (RRecv (VObj k' n)) m2' ->
    w_chans (rest (g_mem g)) n = Some c -> ch_cap c = 0 -> ch_closed c = false ->
    tstep g LTau (mkG (put_nth i (resume m1' []) (put_nth j (resume m2' [v]) (g_threads g))) (g_mem g) (g_users g) false)
| t_start c q : g_dead g = false -> g_users g c = UIdle -> (7 <= List.length q)%nat ->
    let s := g_mem g in let w := rest s in
    tstep g (LStart c q)
      (mkG (g_threads g)
        (mkMem (put_cell (cells s) (free s) (v_call q (w_next w))) (free s + 1) (mkNW (put_chan (w_chans w) (w_next w) (mkCh 0 [] false)) (w_next w + 1) (w_net w) (w_gos w)))
        (upd (g_users g) c (USend q (free s) (w_next w))) false)
| t_enqueue c q a n k f b : g_dead g = false -> g_users g c = USend q a n -> field (g_mem g) (str "FromClient") = Some (VObj k f) ->
    w_chans (rest (g_mem g)) f = Some b -> blen (ch_buf b) < ch_cap b -> ch_closed b = false ->
    tstep g LTau (mkG (g_threads g) (set_chan (g_mem g) f (mkCh (ch_cap b) (ch_buf b ++ [VPtr (str "RPCCall") a []]) false)) (upd (g_users g) c (UWait q n)) false)
| t_deliver i m k n r m' c q b : g_dead g = false -> nth_error (g_threads g) i = Some m -> step P m = Ask (RSend (VObj k n) (VBytes r)) m' ->
    w_chans (rest (g_mem g)) n = Some b -> ch_cap b = 0 -> ch_closed b = false -> g_users g c = UWait q n ->
    tstep g (LDone c r) (mkG (put_nth i (resume m' []) (g_threads g)) (g_mem g) (upd (g_users g) c (UDone q r)) false)
(* GetTag and GetFID: see [GetTag_text], [GetFID_text] *)
| t_gettag k n b t l : g_dead g = false -> field (g_mem g) (str "Tags") = Some (VObj k n) -> w_chans (rest (g_mem g)) n = Some b -> ch_buf b = VU 16 t :: l ->
    tstep g (LTag t) (mkG (g_threads g) (set_chan (g_mem g) n (mkCh (ch_cap b) l (ch_closed b))) (g_users g) false)
| t_getfid n s' : g_dead g = false -> answer lib (RExt (str "atomic.AddUint64") [VPtr [] C [SF (str "FID")]; VC 1]) (g_mem g) = Answer [VU 64 n] s' ->
    tstep g (LFid (n mod 4294967296)) (mkG (g_threads g) s' (g_users g) false).
Inductive tsteps (g : gstate) : list lbl -> gstate -> Prop :=
| ts_nil : tsteps g [] g
| ts_snoc ls g1 l g2 : tsteps g ls g1 -> tstep g1 l g2 -> tsteps g (ls ++ [l]) g2.
(** The machine does not know what to do, or asks for something that is not covered. *)
Definition lost (m : machine) (s : M) : Prop :=
  (exists why, step P m = Stuck why) \/
  (exists r m', step P m = Ask r m' /\ answer lib r s = NoAnswer /\
     match r with RRecv (VObj _ n) | RSend (VObj _ n) _ => w_chans (rest s) n = None | RGo _ _ => False
     | RExt f vs => beq f (str "log.Fatalf") = false /\ ~ (exists o b, f = str "io.WriteCloser.Write" /\ vs = [o; VBytes b]) | _ => True end).
End Client.
