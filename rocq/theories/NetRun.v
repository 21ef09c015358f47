(** A client and a server that run from their texts, and the network between them. *)
From Verif Require Import Base GoBuf CodecPrim Types Codec Msgs CodecSpec StubPrim Stubs Server ServerSpec Rpc GoSyntax Ufs GoRun GoFmt GoProg GoWp
  ServerRun ServerRunLemmas Client ClientSpec ClientRun ClientRunSim ClientHist ClientRunThm.

(** More has arrived. *)
Definition more_in {St} (s : memory (cworld St)) (l : list rev) : memory (cworld St) := with_rest s (upd_in (rest s) (w_in (rest s) ++ l)).
Definition more_mem (s : memory nworld) (l : list rev) : memory nworld :=
  with_rest s (let w := rest s in mkNW (w_chans w) (w_next w) (w_net w ++ l) (w_gos w)).
Definition more_net (g : gstate) (l : list rev) : gstate := mkG (g_threads g) (more_mem (g_mem g) l) (g_users g) (g_dead g).
(** What a step of the client puts on the network. *)
Definition sent (l : lbl) : bytes := match l with LWrite _ b => b | _ => [] end.

Section Net.
Context {St : Type} (ns : NineServer St) (E : Server.env) (remote : bytes) (srn : N)   (* the server *)
        (crn : N) (opt : oserr + (value * value * value * N)) (C : N).                 (* the client *)
Notation P := protocol_program.
Notation OUT := (ServerRun.outside ns E remote srn).

(** One step of the goroutine that serves the connection; None: it has returned, or the server process has crashed. *)
Inductive sstep (m : machine) (s : memory (cworld St)) : option machine -> memory (cworld St) -> Prop :=
| s_quiet m' : quiet (step P m) = Some m' -> sstep m s (Some m') s
| s_ask r m' vs s' : step P m = Ask r m' -> answer OUT r s = Answer vs s' -> sstep m s (Some (resume m' vs)) s'
| s_crash r m' : step P m = Ask r m' -> answer OUT r s = Crash -> sstep m s None s
| s_return vs : step P m = GoRun.Ret vs -> sstep m s None s
| s_panic : step P m = GoRun.Panic -> sstep m s None s
| s_index f : step P m = Maybe None f -> sstep m s None s.

(** The client; bytes under way to the server; the server's goroutine and memory; bytes under way to the client; does the client know
    that the server has closed the connection. *)
Record net := mkNet { n_client : gstate; n_up : bytes; n_server : option machine; n_mem : memory (cworld St); n_down : bytes; n_end : bool }.

(** Either side may go on as long as what it does is not decided by bytes that are still to come: it is possible, with the same outcome,
    whatever they are.  Bytes arrive in pieces of any size, later than they were sent.  The connection can fail on either side.  Once the
    server has closed it and everything has arrived, the client may find its end.  (What the server does after the client is gone is left out.) *)
Inductive jstep (x : net) : list lbl -> net -> Prop :=
| j_client l g : n_end x = false -> (forall more, tstep crn opt C (more_net (n_client x) more) l (more_net g more)) ->
    jstep x [l] (mkNet g (n_up x ++ sent l) (n_server x) (n_mem x) (n_down x) false)
| j_ended l g : n_end x = true -> tstep crn opt C (n_client x) l g ->
    jstep x [l] (mkNet g (n_up x ++ sent l) (n_server x) (n_mem x) (n_down x) true)
| j_server m m' s : n_server x = Some m -> (forall more, sstep m (more_in (n_mem x) more) m' (more_in s more)) ->
    jstep x [] (mkNet (n_client x) (n_up x) m' s (n_down x ++ concat (skipn (List.length (w_out (rest (n_mem x)))) (w_out (rest s)))) (n_end x))
| j_up c up : n_up x = c ++ up -> jstep x [] (mkNet (n_client x) up (n_server x) (more_in (n_mem x) [Chunk c]) (n_down x) (n_end x))
| j_down c down : n_down x = c ++ down -> n_end x = false -> jstep x [] (mkNet (more_net (n_client x) [Chunk c]) (n_up x) (n_server x) (n_mem x) down false)
| j_up_fails : jstep x [] (mkNet (n_client x) (n_up x) (n_server x) (more_in (n_mem x) [RdErr]) (n_down x) (n_end x))
| j_down_fails : n_end x = false -> jstep x [] (mkNet (more_net (n_client x) [RdErr]) (n_up x) (n_server x) (n_mem x) (n_down x) false)
| j_end : n_server x = None \/ w_open (rest (n_mem x)) = false -> n_down x = [] -> jstep x [] (mkNet (n_client x) (n_up x) (n_server x) (n_mem x) [] true).
Inductive jsteps (x : net) : list lbl -> net -> Prop :=
| js_nil : jsteps x [] x
| js_snoc ls y l z : jsteps x ls y -> jstep y l z -> jsteps x (ls ++ l) z.

(** The listener has accepted the connection, with nothing received yet, and the goroutine it has started is about to begin. *)
Definition accepted (x : St) (m : machine) (s : memory (cworld St)) : Prop :=
  exists cn ad tra mp Li rn s0 f vs, is_trace tra /\ cells s0 Li = Some (v_listener (VObj (str "NsCreator") cn) ad tra mp) /\ cells s0 srn = Some v_names /\
    srn <> Li /\ Li < free s0 /\ srn < free s0 /\
    w_in (rest s0) = [] /\ w_out (rest s0) = [] /\ w_open (rest s0) = true /\ w_turn (rest s0) = 0%nat /\ w_started (rest s0) = [] /\ w_ns (rest s0) = x /\
    ends P OUT (start (str "Listener.Accept") [VPtr (str "Listener") Li []] [VObj (str "net.Conn") rn]) s0 (Returned [VNil]) s /\
    w_started (rest s) = [(f, vs)] /\ m = goroutine (f, vs).
(** Both are ready; the file server is in state x. *)
Definition connected (tr hn : bool) (x : St) (n : net) : Prop :=
  opened crn opt [] tr hn C (n_client n) /\ (exists m, n_server n = Some m /\ accepted x m (n_mem n)) /\ n_up n = [] /\ n_down n = [] /\ n_end n = false.
End Net.

(** * What the calls should get *)
Definition writes (ls : list lbl) : list bytes := flat_map (fun l => match l with LWrite _ b => [b] | _ => [] end) ls.
(** All calls are made by the CallT functions of genout.go with arguments that fit into a message and are among those of K. *)
Definition proper_calls (K : tmsg -> Prop) (ls : list lbl) : Prop :=
  forall c q, In (LStart c q) ls -> exists m, q = call_request m /\ fitsT m /\ blen q < 4294967296 /\ K m.
Definition ok_in (K : tmsg -> Prop) (y : N * tmsg) : Prop := ok_req y /\ K (snd y).
(** The answers of the file server fit into messages. *)
Definition fitting {St} (ns : NineServer St) : Prop := forall s m, fitsT m ->
  match invoke ns s m with
  | NSOk _ r => fitsR r /\ blen (marshalR 0 r) < 4294967296
  | NSErr _ e => short e
  | NSPanic => True
  end.
(** The same, for the answers that the file server can give when it begins in state x and is asked only what is among K. *)
Definition fits_rep (a : N * rmsg) : Prop := fst a < 65536 /\ fitsR (snd a) /\ blen (marshalR 0 (snd a)) < 4294967296.
Definition fitting_from (K : tmsg -> Prop) {St} (ns : NineServer St) (x : St) : Prop :=
  forall reqs reps st, Forall (ok_in K) reqs -> answers ns false x reqs = Some (reps, st) -> Forall fits_rep reps.
Definition enc_rep (x : N * rmsg) : bytes := marshalR (fst x) (snd x).
(** What a call returns when the answer to it is a. *)
Definition returns (m : tmsg) (a : rmsg) : callres rmsg :=
  match a with MRerror (mkRerrorPkt e) => CallRet (zero_reply m) (Some e) | a => CallRet a None end.
