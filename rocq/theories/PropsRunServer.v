(** Properties C61 and C62: the Go text of server.go, run statement by statement. *)
From Verif Require Import Base GoBuf CodecPrim Types Codec Msgs StubPrim Stubs GoSyntax GoRun GoProg GoText GoWp Server ServerSpec ServerWitness Listener Ufs
  ServerRun ServerRunLemmas ServerRunThm ListenerRun ListenerRunLemmas ListenerRunThm.
From Coq Require Import Permutation.

(** * C61 *)
(** The program that runs is what is in protocol.go, server.go and client.go. *)
Theorem C61_program : protocol_program = program_of protocol_decls.
Proof. vm_cast_no_check (eq_refl protocol_program). Qed.
Print Assumptions C61_program.
(** Dispatch on any message buffer, type byte and server. *)
Theorem C61_dispatch : forall St (ns : NineServer St) E remote RN nine v b t (s : memory (cworld St)) S B,
  cells s S = Some (v_server nine v) -> cells s B = Some (VBuf b) -> cells s RN = Some v_names -> S <> B -> RN <> B -> RN <> S ->
  exists out s', ends protocol_program (ServerRun.outside ns E remote RN) (start (str "Dispatch") [] [VPtr (str "Server") S []; VPtr (str "bytes.Buffer") B []; VU 8 t]) s out s' /\
    match Dispatch ns (mkSrv v (w_ns (rest s))) b t with
    | SrvReply y reply => (exists err, out = Returned [err]) /\ cells s' S = Some (v_server nine (Versioned y)) /\ cells s' B = Some (VBuf (Buf reply [])) /\
                          w_ns (rest s') = NS y /\ (forall a, a <> S -> a <> B -> cells s' a = cells s a)
    | SrvPanic => out = Panicked
    end.
Proof. exact @text_dispatch. Qed.
Print Assumptions C61_dispatch.
(** A connection: Accept starts one goroutine, which writes the replies of the model, closes the connection, leaves everything else in memory
    alone, and panics exactly when the model does. *)
Theorem C61_session : forall St (ns : NineServer St) E remote RN cn ad tra mp Li rn (s : memory (cworld St)) evs,
  is_trace tra -> cells s Li = Some (v_listener (VObj (str "NsCreator") cn) ad tra mp) -> cells s RN = Some v_names ->
  RN <> Li -> Li < free s -> RN < free s ->
  w_in (rest s) = evs -> w_out (rest s) = [] -> w_open (rest s) = true -> w_turn (rest s) = 0%nat -> w_started (rest s) = [] ->
  let r := serve ns E (w_ns (rest s)) evs in
  exists s1 C, ends protocol_program (ServerRun.outside ns E remote RN) (start (str "Listener.Accept") [VPtr (str "Listener") Li []] [VObj (str "net.Conn") rn]) s (Returned [VNil]) s1 /\
    w_started (rest s1) = [(FUser (str "conn.serve") [VPtr (str "conn") C []], [])] /\ w_out (rest s1) = [] /\ free s <= C /\
  exists s2, ends protocol_program (ServerRun.outside ns E remote RN) (start (str "conn.serve") [VPtr (str "conn") C []] []) s1 (if r_crashed r then Panicked else Returned []) s2 /\
    w_out (rest s2) = r_out r /\ w_ns (rest s2) = NS (r_st r) /\
    (r_crashed r = false -> w_open (rest s2) = false /\ (forall a, a < free s -> cells s2 a = cells s a) /\
       exists S chan, cells s2 C = Some (v_conn Li S (VObj (str "net.Conn") rn) remote chan true) /\ cells s2 S = Some (v_server (VObj (str "NineServer") 0) (Versioned (r_st r)))).
Proof. exact @text_session. Qed.
Print Assumptions C61_session.
Theorem C61_no_connection : forall St (ns : NineServer St) E remote RN Li S C addr chan dead (s : memory (cworld St)),
  cells s C = Some (v_conn Li S VNil addr chan dead) ->
  ends protocol_program (ServerRun.outside ns E remote RN) (start (str "conn.serve") [VPtr (str "conn") C []] []) s (Returned []) (with_cell s C (v_conn Li S VNil addr chan true)).
Proof. exact @text_no_connection. Qed.
Print Assumptions C61_no_connection.
(** A run ends in one way only. *)
Theorem C61_one_ending : forall T P (o : req -> memory T -> reply T) m s out1 s1 out2 s2, ends P o m s out1 s1 -> ends P o m s out2 s2 -> out1 = out2 /\ s1 = s2.
Proof. exact @ends_unique. Qed.
Print Assumptions C61_one_ending.
(** From the text alone: a clunk before the version, a version, a walk, an unknown type, then a header that is cut short. *)
Definition first_cells (v : value) : N -> option value := fun a => if a =? 0 then Some v_names else if a =? 1 then Some v else None.
Definition new_listener : value := v_listener (VObj (str "NsCreator") 0) [] (VObj (str "Tracer") 0) VNil.
Definition session (evs : list rev) : option (ending * list bytes * bool * nat) :=
  match GoWp.run protocol_program (ServerRun.outside (counting false) quiet (str "1.2.3.4:5") 0) 3000 (start (str "Listener.Accept") [VPtr (str "Listener") 1 []] [VObj (str "net.Conn") 0])
          (mkMem (first_cells new_listener) 2 (mkCW evs [] true 0 0 [] [])) with
  | Some (Returned [VNil], s) =>
      match w_started (rest s) with
      | [(FUser f r, [])] =>
          match GoWp.run protocol_program (ServerRun.outside (counting false) quiet (str "1.2.3.4:5") 0) 4000 (start f r []) s with
          | Some (out, s) => Some (out, w_out (rest s), w_open (rest s), length (w_traced (rest s)))
          | None => None
          end
      | _ => None
      end
  | _ => None
  end.
Example C61_case :
  let s := enc_req (3, MTclunk (mkTclunkPkt 5)) ++ enc_req (9, MTversion (mkTversionPkt 8192 (str "9P2000")))
           ++ enc_req (10, MTwalk (mkTwalkPkt 1 2 [str "a"; str "bc"])) ++ raw 200 11 (str "x") in
  session [Chunk (firstn 30 s); Chunk (skipn 30 s); Chunk (str "abc")]
  = Some (Returned [], [marshalR 3 (MRerror (mkRerrorPkt (str "Dispatch: Tclunk not allowed before Tversion")));
                        marshalR 9 (MRversion (mkRversionPkt 8 (str "9P2000")));
                        marshalR 10 (MRwalk (mkRwalkPkt [mkQID 0 0 7; mkQID 0 0 7]));
                        marshalR 11 (MRerror (mkRerrorPkt (str "Dispatch:  not supported")))], false, 15%nat) /\
  r_out (serve (counting false) quiet 0 [Chunk (firstn 30 s); Chunk (skipn 30 s); Chunk (str "abc")]) <> [].
Proof. split; [vm_compute; reflexivity|vm_compute; discriminate]. Qed.

(** * C62 *)
(** A listener is added to the set or taken out of it, under the lock. *)
Theorem C62_track : forall closing is_net option_does cr ad tra Li ln (add : bool) set s, has_set cr ad tra Li set s -> k_locked (rest s) = false ->
  exists s', ends protocol_program (ListenerRun.outside closing is_net option_does)
      (start (str "Listener.trackListener") [VPtr (str "Listener") Li []] [VObj (str "net.Listener") ln; VBool add]) s (Returned []) s' /\
    has_set cr ad tra Li (if add then track set (N.to_nat ln) else untrack set (N.to_nat ln)) s' /\
    k_log (rest s') = k_log (rest s) ++ [LLock; LUnlock] /\ k_locked (rest s') = false.
Proof. exact @text_track. Qed.
Print Assumptions C62_track.
(** Shutdown closes the listeners under the lock, in the order the map is ranged over. *)
Theorem C62_shutdown : forall closing is_net option_does cr ad tra Li set s set' closed err, has_set cr ad tra Li set s -> k_locked (rest s) = false ->
  Permutation (map N.to_nat (k_order (rest s))) set -> close_loop (map N.to_nat (k_order (rest s))) (fun n => closing (N.of_nat n)) set None = (set', closed, err) ->
  exists s', ends protocol_program (ListenerRun.outside closing is_net option_does) (start (str "Listener.Shutdown") [VPtr (str "Listener") Li []] []) s (Returned [err_of err]) s' /\
    has_set cr ad tra Li set' s' /\ k_log (rest s') = k_log (rest s) ++ LLock :: map (fun n => LClose (N.of_nat n)) closed ++ [LUnlock] /\ k_locked (rest s') = false.
Proof. exact @text_shutdown. Qed.
Print Assumptions C62_shutdown.
(** Serve: it returns exactly when the model does; while it waits in Accept (the run is stopped there) it has done what the model says. *)
Theorem C62_serve : forall closing is_net option_does cn ad tra Li set ln s, is_trace tra -> has_set (creator cn) ad tra Li set s -> k_locked (rest s) = false ->
  let (acts, r) := accept_loop 0 (k_accepts (rest s)) in
  exists out s', ends protocol_program (ListenerRun.outside closing is_net option_does) (start (str "Listener.Serve") [VPtr (str "Listener") Li []] [VObj (str "net.Listener") ln]) s out s' /\
    k_locked (rest s') = false /\
    match r with
    | None => out = Panicked /\ k_accepts (rest s') = [] /\ k_log (rest s') = k_log (rest s) ++ [LLock; LUnlock] ++ map LDo acts /\
              has_set (creator cn) ad tra Li (track set (N.to_nat ln)) s'
    | Some e => out = Returned [VErr (OSErr e)] /\ k_log (rest s') = k_log (rest s) ++ [LLock; LUnlock] ++ map LDo acts ++ [LLock; LUnlock; LClose ln] /\
              has_set (creator cn) ad tra Li (untrack (track set (N.to_nat ln)) (N.to_nat ln)) s'
    end.
Proof. exact @text_serve. Qed.
Print Assumptions C62_serve.
(** NewListener applies the options in order until one fails. *)
Theorem C62_new_listener : forall closing is_net option_does cn opts s,
  let m := mkM (CApply (FUser (str "NewListener") []) true Now [creator cn; VList (map (VObj (str "ListenerOpt")) opts)]) [] [] [] in
  exists s', (forall a, a < free s -> cells s' a = cells s a) /\ rest s' = rest s /\
    match options option_does opts (v_listener (creator cn) [] VNil VNil) with
    | inl v => exists a, ends protocol_program (ListenerRun.outside closing is_net option_does) m s (Returned [VPtr (str "Listener") a []; VNil]) s' /\ free s <= a /\ cells s' a = Some v
    | inr e => ends protocol_program (ListenerRun.outside closing is_net option_does) m s (Returned [VNil; VErr (OSErr e)]) s'
    end.
Proof. exact @text_new_listener. Qed.
Print Assumptions C62_new_listener.
(** From the text alone: a listener is made; Serve gets two temporary errors, a connection, an error; the other two Listeners are then shut down. *)
Definition rets {T} (r : option (ending * memory T)) : option (ending * T) := match r with Some (o, s) => Some (o, rest s) | None => None end.
Definition tracked (lns : list N) (s : memory lworld) : memory lworld :=
  fold_left (fun s ln => match GoWp.run protocol_program (ListenerRun.outside (fun n => if n =? 5 then None else if n =? 8 then Some (str "e8") else Some (str "e6")) (fun _ => true) (fun _ v => (v, None))) 500
    (start (str "Listener.trackListener") [VPtr (str "Listener") 1 []] [VObj (str "net.Listener") ln; VBool true]) s with Some (_, s) => s | None => s end) lns s.
Definition world (ac : list accepted) (od : list N) : memory lworld := mkMem (first_cells new_listener) 2 (mkLW ac [] false od).
Example C62_case :
  let out := ListenerRun.outside (fun n => if n =? 5 then None else if n =? 8 then Some (str "e8") else Some (str "e6")) (fun _ => true) (fun o v => (VNil, if o =? 3 then Some (str "bad") else None)) in
  rets (GoWp.run protocol_program out 3000 (start (str "Listener.Serve") [VPtr (str "Listener") 1 []] [VObj (str "net.Listener") 7]) (world [ATemp; ATemp; AConn 4; APerm (str "closed"); ATemp] []))
  = Some (Returned [VErr (OSErr (str "closed"))],
          mkLW [ATemp] [LLock; LUnlock; LDo (Sleep 5000000); LDo (Sleep 10000000); LDo (Start 4); LLock; LUnlock; LClose 7] false []) /\
  rets (GoWp.run protocol_program out 3000 (start (str "Listener.Shutdown") [VPtr (str "Listener") 1 []] []) (tracked [5; 6; 8] (world [] [5; 8; 6])))
  = Some (Returned [VErr (OSErr (str "e8"))],
          mkLW [] [LLock; LUnlock; LLock; LUnlock; LLock; LUnlock; LLock; LClose 5; LClose 8; LClose 6; LUnlock] false [5; 8; 6]) /\
  rets (GoWp.run protocol_program out 3000 (start (str "NewListener") [] [creator 0; VObj (str "ListenerOpt") 2; VObj (str "ListenerOpt") 3; VObj (str "ListenerOpt") 3]) (world [] []))
  = Some (Returned [VNil; VErr (OSErr (str "bad"))], mkLW [] [] false []).
Proof. split; [vm_compute; reflexivity|split; vm_compute; reflexivity]. Qed.
