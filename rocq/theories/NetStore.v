(** A file server with a single file, and three calls to it over the network: two of them at the same time. *)
From Verif Require Import Base GoBuf CodecPrim Types Codec Msgs CodecSpec StubPrim Stubs Server ServerSpec ServerWitness Rpc GoSyntax Ufs GoRun GoFmt GoProg GoWp
  ServerRun ServerRunLemmas Client ClientSpec ClientRun ClientRunLemmas ClientRunSim ClientRunNew ClientHist ClientRunThm ClientRunExec CodecLemmas4 CodecLemmas NetRun NetLemmas NetCase.
Local Opaque NumTags all_tags.

(** A write replaces the contents (by at most 100 bytes), a read returns them. *)
Definition onefile : NineServer bytes :=
  mkNineServer bytes
    (fun s _ v => NSOk s (mkRversionPkt 8192 (str "9P2000")))
    (fun s _ _ _ _ => NSErr s (str "no")) (fun s _ _ _ => NSErr s (str "no")) (fun s _ _ => NSErr s (str "no")) (fun s _ _ _ _ => NSErr s (str "no")) (fun s _ => NSErr s (str "no"))
    (fun s _ _ => NSErr s (str "no")) (fun s _ => NSErr s (str "no")) (fun s _ => NSErr s (str "no"))
    (fun s _ _ _ => NSOk s (mkRreadPkt (firstn 100 s)))
    (fun s _ _ d => NSOk (firstn 100 d) (mkRwritePkt (Z.of_N (blen (firstn 100 d)))))
    (fun s _ => NSErr s (str "no")).
Lemma onefile_fits : fitting onefile.
Proof.
  assert (F : forall l : bytes, blen (firstn 100 l) <= 100).
  { intros l. unfold blen. pose proof (firstn_le_length 100 l). lia. }
  intros s m _. destruct m as [[]|[]|[]|[]|[]|[]|[]|[]|[]|[]|[]|[]]; cbn [invoke onefile ns_Rversion ns_Rattach ns_Rwalk ns_Ropen ns_Rcreate ns_Rstat ns_Rwstat ns_Rclunk ns_Rremove ns_Rread ns_Rwrite ns_Rflush];
    try exact (eq_refl Lt); lazymatch goal with |- context [firstn] => idtac | _ => split; vm_compute; repeat split; reflexivity end.
  - specialize (F s). split; [change (blen (firstn 100 s) < 4294967296); lia|]. rewrite size_rread. lia.
  - match goal with |- context [firstn 100 ?d] => specialize (F d) end. split; [unfold fitsR, in_i32; cbn [Rwrite_RLen]; lia|].
    match goal with |- blen (marshalR 0 ?a) < _ => pose proof (marshalM_blen 0 (MR a)) as L0 end. cbn [marshalM wireM] in L0. rewrite L0. reflexivity.
Qed.

(** The listener accepts the connection. *)
Definition net_addr : bytes := str "1.2.3.4:5".
Definition first_cells (v : value) : N -> option value := fun a => if a =? 0 then Some v_names else if a =? 1 then Some v else None.
Definition new_listener : value := v_listener (VObj (str "NsCreator") 0) [] (VObj (str "Tracer") 0) VNil.
Definition before (x : bytes) : memory (cworld bytes) := mkMem (first_cells new_listener) 2 (mkCW [] [] true x 0 [] []).
Definition accept_run (x : bytes) : option (ending * memory (cworld bytes)) :=
  run protocol_program (ServerRun.outside onefile ServerWitness.quiet net_addr 0) 3000 (start (str "Listener.Accept") [VPtr (str "Listener") 1 []] [VObj (str "net.Conn") 0]) (before x).
Lemma accept_ends x out s : accept_run x = Some (out, s) ->
  ends protocol_program (ServerRun.outside onefile ServerWitness.quiet net_addr 0) (start (str "Listener.Accept") [VPtr (str "Listener") 1 []] [VObj (str "net.Conn") 0]) (before x) out s.
Proof. intros E. exists 3000%nat. exact E. Qed.
Definition net_of (r : option (ending * memory (cworld bytes))) : option (@net bytes) :=
  match r with
  | Some (Returned [VNil], s) => match w_started (rest s) with [(f, vs)] => Some (mkNet (first_state true true []) [] (Some (goroutine (f, vs))) s [] false) | _ => None end
  | _ => None
  end.
Definition first_net (x : bytes) : option (@net bytes) := net_of (accept_run x).
Notation together := (connected onefile ServerWitness.quiet net_addr 0 0 (first_opt true true) 1 true true).
Lemma net_of_some r n : net_of r = Some n -> exists s f vs, r = Some (Returned [VNil], s) /\ w_started (rest s) = [(f, vs)] /\ n = mkNet (first_state true true []) [] (Some (goroutine (f, vs))) s [] false.
Proof.
  unfold net_of. generalize (first_state true true []). intros g.
  destruct r as [[[[|[] [|]]| |] s]|]; intros H; try discriminate H. destruct (w_started (rest s)) as [|[f vs] [|]] eqn:Es; try discriminate H.
  injection H as <-. exists s, f, vs. auto.
Qed.
Lemma first_connected x n : first_net x = Some n -> together x n.
Proof.
  intros H. apply net_of_some in H. destruct H as (s & f & vs & E & Es & ->). apply accept_ends in E.
  split; [apply first_opened|]. split; [|split; [reflexivity|split; reflexivity]]. cbn [n_server n_mem]. exists (goroutine (f, vs)). split; [reflexivity|].
  exists 0, [], (VObj (str "Tracer") 0), VNil, 1, 0, (before x), f, vs.
  split; [right; exists 0; reflexivity|]. split; [reflexivity|]. split; [reflexivity|]. split; [discriminate|]. split; [reflexivity|]. split; [reflexivity|].
  do 6 (split; [reflexivity|]). split; [exact E|]. split; [exact Es|reflexivity].
Qed.

(** The calls: a version, and when it has returned a write and a read at the same time; the bytes come in several pieces. *)
Definition m_version : tmsg := MTversion (mkTversionPkt 8192 (str "9P2000")).
Definition m_write : tmsg := MTwrite (mkTwritePkt 5 0 (str "hello")).
Definition m_read : tmsg := MTread (mkTreadPkt 5 0 20).
Definition three_acts : list jact :=
  [JClient 0 300; JClient 1 300; JServer 400;
   JCall (AStart 0 (call_request m_version)); JCall (AEnqueue 0); JClient 2 2000; JUp 12; JUp 100; JServer 2000; JDown 12; JDown 100;
   JClient 1 2000; JCall (AMeet 1 0); JClient 0 600; JCall (ADeliver 0 0); JClient 0 600; JClient 1 600;
   JCall (AStart 2 (call_request m_read)); JCall (AStart 1 (call_request m_write)); JCall (AEnqueue 1); JCall (AEnqueue 2); JClient 2 3000; JUp 12; JServer 4000; JUp 100; JServer 4000; JDown 9; JDown 100;
   JClient 1 2000; JCall (AMeet 1 0); JClient 0 600; JCall (ADeliver 0 1); JClient 0 600; JClient 1 2000; JCall (AMeet 1 0); JClient 0 600; JCall (ADeliver 0 2)].
Definition w_version : bytes := marshalT 1 m_version.
Definition r_version : bytes := marshalR 1 (MRversion (mkRversionPkt 8192 (str "9P2000"))).
Definition r_write : bytes := marshalR 2 (MRwrite (mkRwritePkt 5)).
Definition r_read : bytes := marshalR 3 (MRread (mkRreadPkt (str "hello"))).
Definition three_seen : list lbl :=
  [LStart 0 (call_request m_version); LWrite 0 (marshalT 1 m_version); LRead r_version; LDone 0 r_version;
   LStart 2 (call_request m_read); LStart 1 (call_request m_write); LWrite 0 (marshalT 2 m_write); LWrite 0 (marshalT 3 m_read);
   LRead r_write; LDone 1 r_write; LRead r_read; LDone 2 r_read].
Lemma three_computed : match first_net (str "old") with
  | Some n0 => match jexec onefile ServerWitness.quiet net_addr 0 0 (first_opt true true) 1 three_acts n0 with Some (ls, _) => seen ls = three_seen | None => False end
  | None => False
  end.
Proof. vm_compute. reflexivity. Qed.
Lemma three_calls : exists n0 l n, together (str "old") n0 /\ jsteps onefile ServerWitness.quiet net_addr 0 0 (first_opt true true) 1 n0 l n /\ proper_calls (fun _ => True) l /\ seen l = three_seen.
Proof.
  pose proof three_computed as H. destruct (first_net (str "old")) as [n0|] eqn:E; [|contradiction]. apply first_connected in E.
  destruct (jexec_reaches _ _ _ _ _ _ _ three_acts n0 (fun ls _ => seen ls = three_seen) H) as (l & n & R & S). exists n0, l, n. split; [exact E|]. split; [exact R|]. split; [|exact S].
  intros c q Hin. assert (Hs : In (LStart c q) three_seen) by (rewrite <- S; unfold seen; apply in_flat_map; exists (LStart c q); split; [exact Hin|left; reflexivity]).
  unfold three_seen in Hs. cbn [In] in Hs.
  repeat match goal with K : _ \/ _ |- _ => destruct K as [K|K]; [try discriminate K|] | K : False |- _ => destruct K end;
  match goal with K : LStart _ (call_request ?m) = LStart _ _ |- _ => injection K as <- <-; exists m; split; [reflexivity|split; [vm_compute; repeat split; first [reflexivity | discriminate]|split; [vm_compute; reflexivity|exact Logic.I]]] end.
Qed.
