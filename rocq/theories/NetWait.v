(** The goroutine that serves a connection, stopped where it would have to wait for the network: it has answered every packet that is there. *)
From Verif Require Import Base GoBuf CodecPrim Types Codec Msgs CodecSpec StubPrim Stubs GoSyntax Ufs GoRun GoFmt GoProg GoWp Server ServerSpec ServerLemmas ServerRun ServerRunLemmas ServerRunThm Rpc
  Client ClientSpec ClientRun ClientRunSim ClientHist ClientRunThm NetRun NetLemmas NetCase NetEats NetServer.
From Coq Require String Ascii.

(** As [ServerRun.outside], but a read for which not enough has arrived stops the run. *)
Definition patient {St} (ns : NineServer St) (E : Server.env) (remote : bytes) (RN : N) (r : req) (s : memory (cworld St)) : reply (cworld St) :=
  if there (w_in (rest s)) r then ServerRun.outside ns E remote RN r s else Exit s.

Ltac machine_delta ::=
  lazy beta iota zeta delta [adv step stops known start fst snd
    resume stuck mapkey as_nat as_z bound foreign qualified is_path builtins named method_of has_field GoRun.bind pairs keys_of
    unboxed1 unboxed default_case zip defines lookup assign declare part
    basic_ints type_name int_of int_type zero_of zero type_of const_n literal pow2 wle wlt convert unify GoRun.is_nil eqv arith unary
    get_path like set_field set_path assoc also mem beq Byte.eqb Byte.to_bits Bool.eqb andb orb
    p_funcs p_types p_consts p_vars protocol_program ctl stk GoRun.env dfr f_name f_recv f_params GoSyntax.f_body
    str String.list_byte_of_string String.list_ascii_of_string Ascii.byte_of_ascii Byte.of_bits map hd tl values_of first1
    v_server v_conn v_listener net_call patient there ServerRun.outside GoWp.answer slice upd_in upd_ns stubs with_rest with_cell with_new cells free rest
    w_in w_out w_open w_ns w_turn w_traced w_started format show show_basic bracket join2 serve_loop loop_cond loop_body].
Ltac outcall ::=
  machine_delta;
  repeat (lazymatch goal with
          | |- (match ?x with _ => _ end) = _ =>
              first [ (lazymatch x with
                       | context [put_cell ?h ?b ?w ?a] => let H := fresh in let v := open_constr:(_ : value) in assert (H : put_cell h b w a = Some v) by cell; rewrite H; clear H
                       | put_cell _ _ _ ?a => let H := fresh in let v := open_constr:(_ : value) in assert (H : x = Some v) by cell; rewrite H; clear H
                       | ?hp ?a => let H := fresh in let v := open_constr:(_ : value) in assert (H : x = Some v) by cell; rewrite H; clear H
                       end)
                    | match goal with H : x = _ |- _ => rewrite H end
                    | lazymatch x with match ?y with _ => _ end => match goal with H : y = _ |- _ => rewrite H end end ]; machine_delta
          end);
  constructed.

Section Conn.
Context {St : Type} (ns : NineServer St) (E : Server.env) (remote : bytes) (RN : N).
Notation WP := (wp protocol_program (patient ns E remote RN)).
Notation M := (memory (cworld St)).
Notation store hp nx i o op x t tr st := (mkMem hp nx (mkCW i o op x t tr st)).
Lemma logf_runs cr ad tra mp Li f vs k e d hp nx i o op x t tr st Q : is_trace tra -> hp Li = Some (v_listener cr ad tra mp) ->
  (forall tr, WP (mkM (CV []) k e d) (store hp nx i o op x t tr st) Q) ->
  WP (mkM (CApply (FUser (str "Listener.logf") [VPtr (str "Listener") Li []]) true Now [VStr f; VList vs]) k e d) (store hp nx i o op x t tr st) Q.
Proof.
  intros Ht HL H. go1. go. destruct Ht as [->|(n & ->)]; go; apply H.
Qed.

Lemma conn_logf_runs cr ad tra mp Li S rwc addr chan dead C f vs k e d hp nx i o op x t tr st Q :
  hp C = Some (v_conn Li S rwc addr chan dead) -> hp Li = Some (v_listener cr ad tra mp) -> is_trace tra ->
  (forall tr, WP (mkM (CV []) k e d) (store hp nx i o op x t tr st) Q) ->
  WP (mkM (CApply (FUser (str "conn.logf") [VPtr (str "conn") C []]) false Now (VStr f :: vs)) k e d) (store hp nx i o op x t tr st) Q.
Proof.
  intros HC HL Ht H. go1; go. eapply logf_runs; [eassumption|cell|]. intros tr'. go. apply H.
Qed.

Lemma Dispatch_runs nine v b t S B k e d hp nx i o op x n tr st Q :
  hp S = Some (v_server nine v) -> hp B = Some (VBuf b) -> hp RN = Some v_names -> S <> B -> RN <> B -> RN <> S ->
  (match Dispatch ns (mkSrv v x) b t with
   | SrvPanic => forall hp', Q Panicked (store hp' nx i o op x n tr st)
   | SrvReply y out => forall hp' err, hp' S = Some (v_server nine (Versioned y)) -> hp' B = Some (VBuf (Buf out [])) -> 
       (forall a, a <> S -> a <> B -> hp' a = hp a) -> (err = VNil \/ exists e, err = VErr e) ->
       WP (mkM (CV [err]) k e d) (store hp' nx i o op (NS y) n tr st) Q
   end) ->
  WP (mkM (CApply (FVal (VFun (str "Dispatch"))) false Now [VPtr (str "Server") S []; VPtr (str "bytes.Buffer") B []; VU 8 t]) k e d) (store hp nx i o op x n tr st) Q.
Proof.
  intros HS HB HR N1 N2 N3 H. go1; go.
  unfold Dispatch, dispatch_switch, on_ns, Tversion_t, Tattach_t, Tflush_t, Twalk_t, Topen_t, Tcreate_t, Tclunk_t, Tstat_t, Twstat_t, Tremove_t, Tread_t, Twrite_t in H.
  cbn [Versioned NS] in H.
  assert (Hfin : forall r, match match r with SrvReply s out => SrvReply (mkSrv true s) out | SrvPanic => SrvPanic end with
     | SrvPanic => forall hp', Q Panicked (store hp' nx i o op x n tr st)
     | SrvReply y out => forall hp' err, hp' S = Some (v_server nine (Versioned y)) -> hp' B = Some (VBuf (Buf out [])) -> 
       (forall a, a <> S -> a <> B -> hp' a = hp a) -> (err = VNil \/ exists e, err = VErr e) ->
       WP (mkM (CV [err]) k e d) (store hp' nx i o op (NS y) n tr st) Q end ->
     match r with
     | SrvPanic => forall hp', Q Panicked (store hp' nx i o op x n tr st)
     | SrvReply y out => forall hp' err, hp' S = Some (v_server nine true) -> hp' B = Some (VBuf (Buf out [])) -> 
       (forall a, a <> S -> a <> B -> hp' a = hp a) -> (err = VNil \/ exists e, err = VErr e) ->
       WP (mkM (CV [err]) k e d) (store hp' nx i o op y n tr st) Q end) by (intros []; auto).
  fork E1.
  - apply Hfin in H. destruct (SrvRversion ns x b) eqn:Es; go.
    + apply H; [cell|cell| |auto]. intros a A1 A2. cell.
    + apply H.
  - destruct v.
    + go. (let rec cases := go;
        lazymatch goal with
        | |- wp _ _ (if ?c then _ else _) _ _ => let E2 := fresh "E" in destruct c eqn:E2; [apply Hfin in H | cases]
        | _ => idtac
        end in cases).
      all: try (lazymatch type of H with match ?r with _ => _ end => destruct r eqn:Es end; go; first [apply H; [cell|cell|intros a A1 A2; cell|auto] | apply H]).
      apply H; [cell|cell|intros a A1 A2; cell|auto].
    + destruct b as [[|d0 [|d1 ds]] sp]; cbn [unread] in *; go.
      * apply H.
      * apply H.
      * apply H; [cell|cell|intros a A1 A2; cell|eauto].
Qed.



(** If the run stops, everything that is there completely has been answered. *)
Definition at_wait (o : list bytes) (evs : list rev) (out : ending) (z : M) : Prop :=
  out = Exited -> exists ps e, eats evs ps e /\ hungry e /\ List.length (w_out (rest z)) = (List.length o + List.length ps)%nat.
Ltac logs := eapply conn_logf_runs; [cell|cell|eassumption|]; let tr := fresh "tr" in intros tr; go.
Ltac over H := apply H; unfold at_wait; discriminate.
Lemma loop_waits cr ad tra mp Li S C nine rn chan st (Q : ending -> M -> Prop) : is_trace tra -> Li <> S -> Li <> C -> S <> C -> RN <> Li -> RN <> C -> RN <> S ->
  forall n evs hp nx v o x t tr, (pending evs < n)%nat ->
  hp Li = Some (v_listener cr ad tra mp) -> hp C = Some (v_conn Li S (VObj (str "net.Conn") rn) remote chan false) ->
  hp S = Some (v_server nine v) -> hp RN = Some v_names ->
  Li < nx -> S < nx -> C < nx -> RN < nx ->
  (forall out z, at_wait o evs out z -> Q out z) ->
  WP (serve_loop C rn) (store hp nx evs o true x t tr st) Q.
Proof.
  intros Ht N1 N2 N3 N4 N5 N6. induction n as [|n IH]; intros evs hp nx v o x t tr Hn HL HC HS HR L1 L2 L3 L4 H; [lia|].
  destruct evs as [|ev evr] eqn:Eevs.
  { go1. go. apply H. intros _. exists [], []. cbn. split; [constructor|]. split; [|lia]. split; [reflexivity|]. left. reflexivity. }
  destruct (net_read 7 evs) as [| |bs evs1] eqn:En.
  - subst evs. go1. go. change 7%nat with (N.to_nat (Z.to_N 7)) in En. go. logs. over H.
  - subst evs. go1. go. change 7%nat with (N.to_nat (Z.to_N 7)) in En. go. logs. over H.
  - assert (Hl : (List.length bs <= 7)%nat).
    { eapply net_read_len; eassumption. }
    destruct (Nat.eq_dec (List.length bs) 7) as [H7|H7].
    2: { assert (Z.of_N (blen bs) <? 7 = true)%Z by (unfold blen; lia).
         subst evs. go1. go. change 7%nat with (N.to_nat (Z.to_N 7)) in En. go. logs. over H. }
    destruct bs as [|l0 [|l1 [|l2 [|l3 [|l4 [|l5 [|l6 [|]]]]]]]]; try discriminate. clear Hl H7.
    assert (Pk : packet evs = match copy_limit (N.to_nat (b2n l0 + N.shiftl (b2n l1) 8 + N.shiftl (b2n l2) 16 + N.shiftl (b2n l3) 24 - 7)) evs1 with Some (body, r) => Some ([l0; l1; l2; l3; l4; l5; l6] ++ body, r) | None => None end).
    { unfold packet. rewrite En. destruct (copy_limit _ evs1) as [[c r]|]; reflexivity. }
    assert (Pe : packet (evs ++ [RdErr]) = match copy_limit (N.to_nat (b2n l0 + N.shiftl (b2n l1) 8 + N.shiftl (b2n l2) 16 + N.shiftl (b2n l3) 24 - 7)) (evs1 ++ [RdErr]) with Some (body, r) => Some ([l0; l1; l2; l3; l4; l5; l6] ++ body, r) | None => None end).
    { unfold packet. rewrite read_more by (rewrite Eevs; discriminate). rewrite En. destruct (copy_limit _ (evs1 ++ [RdErr])) as [[c r]|]; reflexivity. }
    pose proof (net_read_pending _ _ _ _ En) as Hp1. cbn [List.length] in Hp1. rewrite <- size_z in Pk, Pe. rewrite <- Eevs in Hn, H.
    destruct (copy_limit (Z.to_nat _) evs1) as [[body evs2]|] eqn:Ec.
    2: { clear Pk Pe. subst evs. go1. go. change 7%nat with (N.to_nat (Z.to_N 7)) in En. go. logs. over H. }
    destruct (Nat.eqb (List.length body) (Z.to_nat (swrap 64 (swrap 64 (swrap 64 (swrap 64 (Z.of_N (b2n l0) + swrap 64 (Z.shiftl (Z.of_N (b2n l1)) 8)) + swrap 64 (Z.shiftl (Z.of_N (b2n l2)) 16)) + swrap 64 (Z.shiftl (Z.of_N (b2n l3)) 24)) - 7)))) eqn:El.
    2: { assert (Hu : hungry evs).
         { split; [|right; rewrite Pk; discriminate]. destruct (packet_cases _ _ _ Pk) as [X|(X & _)]; [|exact X]. exfalso. specialize (X [RdErr]). rewrite Pe in X.
           destruct (copy_limit _ (evs1 ++ [RdErr])) as [[c r]|] eqn:Ec'; [|discriminate X]. assert (c = body) by (inversion X; reflexivity). subst c.
           destruct (copy_limit_intact _ _ _ _ Ec') as [_ [Y|[Y _]]]; [|rewrite intact_err in Y; discriminate Y]. apply Nat.eqb_neq in El. contradiction. }
         clear Pk Pe. subst evs. go1. go. change 7%nat with (N.to_nat (Z.to_N 7)) in En. go. apply H. intros _. exists [], (ev :: evr). cbn. split; [constructor|]. split; [exact Hu|lia]. }
    rewrite (copy_more _ [RdErr] _ _ _ Ec) in Pe by (apply Nat.eqb_eq, El).
    assert (Hp' : (pending evs2 < n)%nat).
    { apply copy_limit_stream in Ec. lia. }
    clear Hn Hp1 Pk. rewrite <- Eevs. revert Pe. rewrite Eevs. intros Pe. rewrite Eevs in En, H.
    go1. go. change 7%nat with (N.to_nat (Z.to_N 7)) in En. go. logs.
    eapply (Dispatch_runs nine v (Buf ([l5; l6] ++ body) (e_spare E t))); [cell|cell|cell|lia|lia|lia|].
    destruct (Dispatch ns (mkSrv v x) (Buf ([l5; l6] ++ body) (e_spare E t)) (b2n l4)) as [[v' x'] out|] eqn:Ed.
    2: { intros hp'. over H. }
    cbn [Versioned NS]. intros hp' err P1 P2 P3 P4. 
    assert (HL' : hp' Li = Some (v_listener cr ad tra mp)) by (rewrite P3 by lia; cell).
    assert (HC' : hp' C = Some (v_conn Li S (VObj (str "net.Conn") rn) remote chan false)) by (rewrite P3 by lia; cell).
    assert (HR' : hp' RN = Some v_names) by (rewrite P3 by lia; cell).
    assert (HN' : hp' nx = Some (VArr [l0; l1; l2; l3; l4; l5; l6])) by (rewrite P3 by lia; cell).
    clear P3.
    destruct (e_write E t) as [kw|] eqn:Ew.
    + destruct P4 as [->|(er & ->)]; go; logs; logs; try logs; over H.
    + assert (Fin : forall tr, WP (serve_loop C rn) (store hp' (nx + 1 + 1) evs2 (o ++ [out]) true x' (Datatypes.S t) tr st) Q).
      { intros tr'. eapply IH; try eassumption; try lia. intros out' z W. apply H. intros X. destruct (W X) as (ps & e & W1 & W2 & W3).
        eexists (_ :: ps), e. split; [eapply eats_cons; [exact Pe|exact W1]|]. split; [exact W2|]. rewrite W3, app_length. cbn [List.length]. lia. }
      destruct P4 as [->|(er & ->)]; go; logs; logs; try logs; apply Fin.
Qed.
Lemma serve_waits cr ad tra mp Li S C nine addr v rn chan hp nx evs o x t tr st (Q : ending -> M -> Prop) :
  is_trace tra -> hp Li = Some (v_listener cr ad tra mp) -> hp C = Some (v_conn Li S (VObj (str "net.Conn") rn) addr chan false) ->
  hp S = Some (v_server nine v) -> hp RN = Some v_names ->
  Li <> S -> Li <> C -> S <> C -> RN <> Li -> RN <> C -> RN <> S -> Li < nx -> S < nx -> C < nx -> RN < nx ->
  (forall out z, at_wait o evs out z -> Q out z) ->
  WP (start (str "conn.serve") [VPtr (str "conn") C []] []) (store hp nx evs o true x t tr st) Q.
Proof.
  intros Ht HL HC HS HR N1 N2 N3 N4 N5 N6 L1 L2 L3 L4 H. go1. go. logs.
  eapply (loop_waits cr ad tra mp Li S C nine rn chan st Q); try eassumption; try (cell; fail); eauto; try solve [cell].
Qed.
End Conn.
