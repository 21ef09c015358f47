(** The text of server.go serves a connection as Server.v says. *)
From Verif Require Import Base GoBuf CodecPrim Types Codec StubPrim Stubs GoSyntax Ufs GoRun GoFmt GoProg GoWp Server ServerLemmas ServerRun ServerRunLemmas.

Section Conn.
Context {St : Type} (ns : NineServer St) (E : Server.env) (remote : bytes) (RN : N).
Notation WP := (wp protocol_program (outside ns E remote RN)).
Notation store hp nx i o op x t tr st := (mkMem hp nx (mkCW i o op x t tr st)).
(** server.go:80-92 and 162-170: newConn, Accept *)
Lemma accept_runs cn ad tra mp Li rn hp nx i o op x t tr st (Q : ending -> memory (cworld St) -> Prop) :
  hp Li = Some (v_listener (VObj (str "NsCreator") cn) ad tra mp) -> Li < nx ->
  (forall hp', hp' nx = Some (v_server (VObj (str "NineServer") 0) false) ->
     hp' (nx + 1) = Some (v_conn Li nx (VObj (str "net.Conn") rn) [] (VObj (str "chan") 0) false) -> (forall a, a <> nx -> a <> nx + 1 -> hp' a = hp a) ->
     Q (Returned [VNil]) (store hp' (nx + 1 + 1) i o op x t tr (st ++ [(FUser (str "conn.serve") [VPtr (str "conn") (nx + 1) []], [])]))) ->
  WP (start (str "Listener.Accept") [VPtr (str "Listener") Li []] [VObj (str "net.Conn") rn]) (store hp nx i o op x t tr st) Q.
Proof.
  intros HL L H. go1. go. go1. go. apply H; [cell|cell|]. intros a A1 A2. cell.
Qed.
(** server.go:202-205: there is no connection *)
Lemma serve_nil_runs Li S C addr chan dead hp nx i o op x t tr st (Q : ending -> memory (cworld St) -> Prop) :
  hp C = Some (v_conn Li S VNil addr chan dead) ->
  Q (Returned []) (store (put_cell hp C (v_conn Li S VNil addr chan true)) nx i o op x t tr st) ->
  WP (start (str "conn.serve") [VPtr (str "conn") C []] []) (store hp nx i o op x t tr st) Q.
Proof. intros HC H. go1. go. exact H. Qed.
End Conn.

(** * Dispatch, server.go:251-295 *)
Lemma text_dispatch : forall St (ns : NineServer St) E remote RN nine v b t (s : memory (cworld St)) S B,
  cells s S = Some (v_server nine v) -> cells s B = Some (VBuf b) -> cells s RN = Some v_names -> S <> B -> RN <> B -> RN <> S ->
  exists out s', ends protocol_program (outside ns E remote RN) (start (str "Dispatch") [] [VPtr (str "Server") S []; VPtr (str "bytes.Buffer") B []; VU 8 t]) s out s' /\
    match Dispatch ns (mkSrv v (w_ns (rest s))) b t with
    | SrvReply y reply => (exists err, out = Returned [err]) /\ cells s' S = Some (v_server nine (Versioned y)) /\ cells s' B = Some (VBuf (Buf reply [])) /\
                          w_ns (rest s') = NS y /\ (forall a, a <> S -> a <> B -> cells s' a = cells s a)
    | SrvPanic => out = Panicked
    end.
Proof.
  intros St ns E remote RN nine v b t [hp nx [i o op x n tr st]] S B H1 H2 H3 N1 N2 N3. cbn [cells rest w_ns] in *.
  assert (W : wp protocol_program (outside ns E remote RN) (mkM (CApply (FVal (VFun (str "Dispatch"))) false Now [VPtr (str "Server") S []; VPtr (str "bytes.Buffer") B []; VU 8 t]) [] [] [])
    (mkMem hp nx (mkCW i o op x n tr st)) (fun out s' => 
    match Dispatch ns (mkSrv v x) b t with
    | SrvReply y reply => (exists err, out = Returned [err]) /\ cells s' S = Some (v_server nine (Versioned y)) /\ cells s' B = Some (VBuf (Buf reply [])) /\
                          w_ns (rest s') = NS y /\ (forall a, a <> S -> a <> B -> cells s' a = hp a)
    | SrvPanic => out = Panicked
    end)).
  { eapply (Dispatch_runs ns E remote RN nine v b t S B); try eassumption. destruct (Dispatch ns (mkSrv v x) b t) as [y reply|]; [|reflexivity].
    intros hp' err P1 P2 P3 P4. apply wp_step. cbn [step ctl stk wp_res]. repeat split; eauto. }
  destruct W as (k & out & s' & W & Q). destruct k as [|k]; [discriminate|]. exists out, s'. split; [|exact Q]. exists (Datatypes.S k). exact W.
Qed.

(** * A connection from Accept on, server.go:162-170 and 201-244 *)
Lemma text_session : forall St (ns : NineServer St) E remote RN cn ad tra mp Li rn (s : memory (cworld St)) evs,
  is_trace tra -> cells s Li = Some (v_listener (VObj (str "NsCreator") cn) ad tra mp) -> cells s RN = Some v_names ->
  RN <> Li -> Li < free s -> RN < free s ->
  w_in (rest s) = evs -> w_out (rest s) = [] -> w_open (rest s) = true -> w_turn (rest s) = 0%nat -> w_started (rest s) = [] ->
  let r := serve ns E (w_ns (rest s)) evs in
  exists s1 C, ends protocol_program (outside ns E remote RN) (start (str "Listener.Accept") [VPtr (str "Listener") Li []] [VObj (str "net.Conn") rn]) s (Returned [VNil]) s1 /\
    w_started (rest s1) = [(FUser (str "conn.serve") [VPtr (str "conn") C []], [])] /\ w_out (rest s1) = [] /\ free s <= C /\
  exists s2, ends protocol_program (outside ns E remote RN) (start (str "conn.serve") [VPtr (str "conn") C []] []) s1 (if r_crashed r then Panicked else Returned []) s2 /\
    w_out (rest s2) = r_out r /\ w_ns (rest s2) = NS (r_st r) /\
    (r_crashed r = false -> w_open (rest s2) = false /\ (forall a, a < free s -> cells s2 a = cells s a) /\
       exists S chan, cells s2 C = Some (v_conn Li S (VObj (str "net.Conn") rn) remote chan true) /\ cells s2 S = Some (v_server (VObj (str "NineServer") 0) (Versioned (r_st r)))).
Proof.
  intros St ns E remote RN cn ad tra mp Li rn [hp nx [i o op x n tr st]] evs Ht HL HR N1 L1 L2.
  cbn [cells free rest w_in w_out w_open w_turn w_started w_ns] in *. intros -> -> -> -> ->. set (r := serve ns E x evs).
  set (K := fun (out : ending) (s1 : memory (cworld St)) => out = Returned [VNil] /\ exists hp1, s1 = mkMem hp1 (nx + 1 + 1) (mkCW evs [] true x 0 tr [(FUser (str "conn.serve") [VPtr (str "conn") (nx + 1) []], [])]) /\
     hp1 nx = Some (v_server (VObj (str "NineServer") 0) false) /\ hp1 (nx + 1) = Some (v_conn Li nx (VObj (str "net.Conn") rn) [] (VObj (str "chan") 0) false) /\
     (forall a, a <> nx -> a <> nx + 1 -> hp1 a = hp a)).
  destruct (accept_runs ns E remote RN cn ad tra mp Li rn hp nx evs [] true x 0 tr [] K HL L1) as (k1 & out1 & s1 & R1 & -> & hp1 & -> & S1 & C1 & F1).
  { intros hp' P1 P2 P3. split; [reflexivity|]. exists hp'. auto. }
  exists (mkMem hp1 (nx + 1 + 1) (mkCW evs [] true x 0 tr [(FUser (str "conn.serve") [VPtr (str "conn") (nx + 1) []], [])])), (nx + 1).
  split; [exists k1; exact R1|]. cbn [rest w_started w_out]. split; [reflexivity|]. split; [reflexivity|]. split; [lia|].
  set (K2 := fun (out : ending) (s2 : memory (cworld St)) => out = (if r_crashed r then Panicked else Returned []) /\
    w_out (rest s2) = r_out r /\ w_ns (rest s2) = NS (r_st r) /\
    (r_crashed r = false -> w_open (rest s2) = false /\ (forall a, a < nx -> cells s2 a = hp a) /\
       exists S chan, cells s2 (nx + 1) = Some (v_conn Li S (VObj (str "net.Conn") rn) remote chan true) /\ cells s2 S = Some (v_server (VObj (str "NineServer") 0) (Versioned (r_st r))))).
  destruct (serve_runs ns E remote RN hp nx (VObj (str "NsCreator") cn) ad tra mp Li nx (nx + 1) (VObj (str "NineServer") 0) [] false rn (VObj (str "chan") 0)
    hp1 (nx + 1 + 1) evs [] x 0 tr [(FUser (str "conn.serve") [VPtr (str "conn") (nx + 1) []], [])] K2) as (k2 & out2 & s2 & R2 & Q1 & Q2); try assumption; try lia.
  - rewrite F1 by lia. exact HL.
  - rewrite F1 by lia. exact HR.
  - intros a A1 A2 A3. apply F1; lia.
  - unfold serve_ends. change (serve_from ns E 0 (mkSrv false x) evs) with r. destruct (r_crashed r) eqn:Ec.
    + intros. unfold K2. rewrite ?Ec. cbn [rest w_out w_ns app]. repeat split; intros; discriminate.
    + intros hp' nx' i' t' tr' P1 P2 P3. unfold K2. rewrite ?Ec. cbn [rest w_out w_ns w_open app cells]. repeat split.
      * intros a A. apply P3; lia.
      * eauto.
  - exists s2. split; [exists k2; rewrite R2, Q1; reflexivity|]. exact Q2.
Qed.
(** There is nothing to serve, server.go:202-205. *)
Lemma text_no_connection : forall St (ns : NineServer St) E remote RN Li S C addr chan dead (s : memory (cworld St)),
  cells s C = Some (v_conn Li S VNil addr chan dead) ->
  ends protocol_program (outside ns E remote RN) (start (str "conn.serve") [VPtr (str "conn") C []] []) s (Returned []) (with_cell s C (v_conn Li S VNil addr chan true)).
Proof.
  intros St ns E remote RN Li S C addr chan dead [hp nx [i o op x n tr st]] H.
  destruct (serve_nil_runs ns E remote RN Li S C addr chan dead hp nx i o op x n tr st
    (fun out s' => out = Returned [] /\ s' = mkMem (put_cell hp C (v_conn Li S VNil addr chan true)) nx (mkCW i o op x n tr st)) H) as (k & out & s' & R & -> & ->); [auto|].
  exists k. exact R.
Qed.
