(** Following the text of server.go through the machine. *)
From Verif Require Import Base GoBuf CodecPrim Types Codec StubPrim Stubs GoSyntax Ufs GoRun GoFmt GoProg GoWp Server ServerLemmas ServerRun.
From Coq Require String Ascii.

Definition known : list bytes := [str "conn.logf"; str "Dispatch"; str "Listener.logf"; str "Listener.newConn"; str "Listener.trackListener"; str "Listener.Accept"].

Lemma names_map t : exists o, lookup_n (match RPCNames_literal with Some l => l | None => [] end) t = o /\ (match o with Some v => v | None => VStr [] end) = VStr (RPCNames t).
Proof.
  eexists. split; [reflexivity|]. unfold RPCNames, RPCNames_literal, Tversion_t, Rversion_t, Tauth_t, Rauth_t, Tattach_t, Rattach_t, Terror_t, Rerror_t, Tflush_t, Rflush_t, Twalk_t, Rwalk_t, Topen_t, Ropen_t, Tcreate_t, Rcreate_t, Tread_t, Rread_t, Twrite_t, Rwrite_t, Tclunk_t, Rclunk_t, Tremove_t, Rremove_t, Tstat_t, Rstat_t, Twstat_t, Rwstat_t. cbn [lookup_n].
  repeat (lazymatch goal with |- context [t =? ?n] => destruct (N.eqb_spec t n); [subst t; reflexivity|] end).
  reflexivity.
Qed.
Lemma ask_names {T} (o : req -> memory T -> reply T) a t m s Q : cells s a = Some v_names ->
  (forall b, wp protocol_program o (resume m [VStr (RPCNames t); VBool b]) s Q) -> wp_res protocol_program o (Ask (RMapGet a t) m) s Q.
Proof.
  intros H1 H. cbn [wp_res answer]. rewrite H1. unfold v_names. destruct (names_map t) as (w & E1 & E2). rewrite E1.
  destruct w as [w|]; rewrite E2; apply H.
Qed.

(** The loop of conn.serve, server.go:213-243 *)
Definition serve_body : list stmt := Eval vm_compute in match assoc (str "conn.serve") (p_funcs protocol_program) with Some f => f_body f | None => [] end.
Definition loop_cond : option expr := Eval vm_compute in match last serve_body SBreak with SFor _ c _ _ => c | _ => None end.
Definition loop_body : list stmt := Eval vm_compute in match last serve_body SBreak with SFor _ _ _ b => b | _ => [] end.
Definition serve_loop (C rn : N) : machine :=
  mkM (CLoop loop_cond None loop_body) [KSeq []; KFun [] []] [[(str "c", VPtr (str "conn") C [])]] [(FExt (str "net.Conn.Close") [VObj (str "net.Conn") rn], [])].

(** Evaluate the machine, but nothing of what the values are made of. *)
Ltac machine_delta :=
  lazy beta iota zeta delta [adv step stops known start fst snd
    resume stuck mapkey as_nat as_z bound foreign qualified is_path builtins named method_of has_field GoRun.bind pairs keys_of
    unboxed1 unboxed default_case zip defines lookup assign declare part
    basic_ints type_name int_of int_type zero_of zero type_of const_n literal pow2 wle wlt convert unify GoRun.is_nil eqv arith unary
    get_path like set_field set_path assoc also mem beq Byte.eqb Byte.to_bits Bool.eqb andb orb
    p_funcs p_types p_consts p_vars protocol_program ctl stk GoRun.env dfr f_name f_recv f_params f_body
    str String.list_byte_of_string String.list_ascii_of_string Ascii.byte_of_ascii Byte.of_bits map hd tl values_of first1
    v_server v_conn v_listener net_call outside answer slice upd_in upd_ns stubs with_rest with_cell with_new cells free rest
    w_in w_out w_open w_ns w_turn w_traced w_started format show show_basic bracket join2 serve_loop loop_cond loop_body].
Ltac head t := lazymatch t with ?f _ => head f | _ => constr:(t) end.
Ltac evaluated vs := lazymatch vs with [] => idtac | ?v :: ?r => let c := head v in is_constructor c; evaluated r end.
Ltac constructed := lazymatch goal with |- ?x = _ => let c := head x in is_constructor c; reflexivity end.
(** What is in a cell. *)
Ltac cell := cbn [cells];
  repeat (first [apply put_same | rewrite put_other by lia
                | match goal with H : forall b, b <> ?n -> ?hp b = _ |- ?hp ?a = _ => rewrite (H a) by lia end]); try eassumption; try reflexivity.
(** The answer of something outside; cells it depends on are looked up. *)
Ltac outcall :=
  machine_delta;
  repeat (lazymatch goal with
          | |- (match ?x with _ => _ end) = _ =>
              first [ (lazymatch x with
                       | context [put_cell ?h ?b ?w ?a] => let H := fresh in let v := open_constr:(_ : value) in assert (H : put_cell h b w a = Some v) by cell; rewrite H; clear H
                       | put_cell _ _ _ ?a => let H := fresh in let v := open_constr:(_ : value) in assert (H : x = Some v) by cell; rewrite H; clear H
                       | ?hp ?a => let H := fresh in let v := open_constr:(_ : value) in assert (H : x = Some v) by cell; rewrite H; clear H
                       end)
                    | match goal with H : x = _ |- _ => rewrite H end ]; machine_delta
          end);
  constructed.
Ltac ask :=
  lazymatch goal with
  | |- wp_res _ _ (Next _) _ _ => cbv beta iota delta [wp_res]
  | |- wp_res _ _ (Split _ _ _) _ _ => cbv beta iota delta [wp_res]
  | |- wp_res ?p ?o (Branch ?b ?m ?m') ?s ?q =>
      let b' := eval lazy beta iota delta [negb bounds_ok andb Z.leb Z.ltb Z.eqb Z.compare Pos.compare Pos.compare_cont Z.of_N Z.to_N blen N.of_nat List.length Pos.of_succ_nat Pos.succ] in b in
      let b' := lazymatch b' with true => b' | false => b' | _ => let c := eval cbn [negb] in b in c end in
      lazymatch b' with
      | true => change (wp_res p o (Branch true m m') s q)
      | false => change (wp_res p o (Branch false m m') s q)
      | _ => try match goal with X : b' = true |- _ => change b with b'; rewrite X | X : b' = false |- _ => change b with b'; rewrite X end
      end; cbv beta iota delta [wp_res]
  | |- wp_res ?p ?o (Maybe ?x ?f) ?s ?q =>
      let o' := eval lazy beta iota delta [nth_error Z.to_nat Pos.to_nat Pos.iter_op Init.Nat.add unread repeat firstn skipn app N.to_nat N.add Z.to_N overlay List.length] in x in
      lazymatch o' with
      | Some ?v => change (wp_res p o (Maybe (Some v) f) s q)
      | _ => idtac
      end; cbv beta iota delta [wp_res]
  | |- wp_res _ _ (Ask (RLoad _ _) _) _ _ => eapply ask_load; [cell | machine_delta; reflexivity |]
  | |- wp_res _ _ (Ask (RStore _ _ _) _) _ _ => eapply ask_store; [cell | machine_delta; reflexivity | cbn [cells free rest]]
  | |- wp_res _ _ (Ask (RMapNew _) _) _ _ => apply ask_mapnew; cbn [cells free rest]
  | |- wp_res _ _ (Ask (RNew _) _) _ _ => apply ask_new; cbn [cells free rest]
  | |- wp_res _ _ (Ask (RMapGet _ _) _) _ _ => first [eapply ask_names; [solve [cell] | let b := fresh "found" in intros b] | eapply ask_get; [cell | eassumption | cbv iota]]
  | |- wp_res _ _ (Ask (RMapSet _ _ _) _) _ _ => eapply ask_set; [cell | cbn [cells free rest]]
  | |- wp_res _ _ (Ask (RMapDel _ _) _) _ _ => eapply ask_del; [cell | cbn [cells free rest]]
  | |- wp_res _ _ (Ask _ _) _ _ => first [eapply ask_out; [outcall |] | eapply ask_crash; [outcall |] | eapply ask_exit; [outcall |]]
  | |- wp_res _ _ (GoRun.Ret _) _ _ => cbv beta iota delta [wp_res]
  | |- wp_res _ _ GoRun.Panic _ _ => cbv beta iota delta [wp_res]
  end.
Ltac go1 := eapply (wp_adv _ _ known 400); [machine_delta; constructed|]; ask.
Ltac go2 :=
  lazymatch goal with
  | |- wp _ _ ?m _ _ =>
      lazymatch m with
      | mkM (CRet _) (KFun _ _ :: _) _ [] => apply wp_return
      | mkM _ ?k _ _ => tryif is_var k then fail else let b := eval lazy in (stops known m) in lazymatch b with false => go1 end
      | resume _ ?vs => evaluated vs; go1
      end
  end.
Ltac go := repeat go2.
Ltac fork E := lazymatch goal with |- wp _ _ (if ?b then _ else _) _ _ => destruct b eqn:E end.
Ltac see :=
  lazymatch goal with
  | |- wp _ _ (if ?b then _ else _) _ _ => idtac "SEE branch" b
  | |- wp _ _ (mkM ?c ?k ?e _) ?s _ => idtac "SEE at" c "ENV" e "STORE" s; match k with ?x :: _ => idtac "STACK" x | _ => idtac k end
  | |- wp _ _ (resume (mkM ?c ?k ?e _) ?v) ?s _ => idtac "SEE answer" v "ENV" e "STORE" s; match k with ?x :: _ => idtac "STACK" x | _ => idtac k end
  | |- wp_res _ _ (Ask ?r _) ?s _ => idtac "SEE ask" r s
  | |- wp_res _ _ (Stuck ?r) ?s _ => idtac "SEE stuck" r
  | |- ?g => idtac "SEE" g
  end.

Section Conn.
Context {St : Type} (ns : NineServer St) (E : Server.env) (remote : bytes) (RN : N).
Notation WP := (wp protocol_program (outside ns E remote RN)).
(** No trace function, or one. *)
Definition is_trace (v : value) : Prop := v = VNil \/ exists n, v = VObj (str "Tracer") n.
Notation store hp nx i o op x t tr st := (mkMem hp nx (mkCW i o op x t tr st)).
Lemma logf_runs cr ad tra mp Li f vs k e d hp nx i o op x t tr st Q : is_trace tra -> hp Li = Some (v_listener cr ad tra mp) ->
  (forall tr, WP (mkM (CV []) k e d) (store hp nx i o op x t tr st) Q) ->
  WP (mkM (CApply (FUser (str "Listener.logf") [VPtr (str "Listener") Li []]) true Now [VStr f; VList vs]) k e d) (store hp nx i o op x t tr st) Q.
Proof.
  intros Ht HL H. go1. go. destruct Ht as [->|(n & ->)]; go; apply H.
Qed.

Lemma conn_logf_runs cr ad tra mp Li S rwc addr chan dead C f vs k e d hp nx i o op x t tr st Q :
  hp C = Some (v_conn Li S rwc addr chan dead) -> hp Li = Some (v_listener cr ad tra mp) -> is_trace tra ->
  (forall tr, WP (mkM (CV []) k e d) (store hp nx i o op x t tr st) Q) ->
  WP (mkM (CApply (FUser (str "conn.logf") [VPtr (str "conn") C []]) false Now (VStr f :: vs)) k e d) (store hp nx i o op x t tr st) Q.
Proof.
  intros HC HL Ht H. go1; go. eapply logf_runs; [eassumption|cell|]. intros tr'. go. apply H.
Qed.

Lemma Dispatch_runs nine v b t S B k e d hp nx i o op x n tr st Q :
  hp S = Some (v_server nine v) -> hp B = Some (VBuf b) -> hp RN = Some v_names -> S <> B -> RN <> B -> RN <> S ->
  (match Dispatch ns (mkSrv v x) b t with
   | SrvPanic => forall hp', Q Panicked (store hp' nx i o op x n tr st)
   | SrvReply y out => forall hp' err, hp' S = Some (v_server nine (Versioned y)) -> hp' B = Some (VBuf (Buf out [])) -> 
       (forall a, a <> S -> a <> B -> hp' a = hp a) -> (err = VNil \/ exists e, err = VErr e) ->
       WP (mkM (CV [err]) k e d) (store hp' nx i o op (NS y) n tr st) Q
   end) ->
  WP (mkM (CApply (FVal (VFun (str "Dispatch"))) false Now [VPtr (str "Server") S []; VPtr (str "bytes.Buffer") B []; VU 8 t]) k e d) (store hp nx i o op x n tr st) Q.
Proof.
  intros HS HB HR N1 N2 N3 H. go1; go.
  unfold Dispatch, dispatch_switch, on_ns, Tversion_t, Tattach_t, Tflush_t, Twalk_t, Topen_t, Tcreate_t, Tclunk_t, Tstat_t, Twstat_t, Tremove_t, Tread_t, Twrite_t in H.
  cbn [Versioned NS] in H.
  assert (Hfin : forall r, match match r with SrvReply s out => SrvReply (mkSrv true s) out | SrvPanic => SrvPanic end with
     | SrvPanic => forall hp', Q Panicked (store hp' nx i o op x n tr st)
     | SrvReply y out => forall hp' err, hp' S = Some (v_server nine (Versioned y)) -> hp' B = Some (VBuf (Buf out [])) -> 
       (forall a, a <> S -> a <> B -> hp' a = hp a) -> (err = VNil \/ exists e, err = VErr e) ->
       WP (mkM (CV [err]) k e d) (store hp' nx i o op (NS y) n tr st) Q end ->
     match r with
     | SrvPanic => forall hp', Q Panicked (store hp' nx i o op x n tr st)
     | SrvReply y out => forall hp' err, hp' S = Some (v_server nine true) -> hp' B = Some (VBuf (Buf out [])) -> 
       (forall a, a <> S -> a <> B -> hp' a = hp a) -> (err = VNil \/ exists e, err = VErr e) ->
       WP (mkM (CV [err]) k e d) (store hp' nx i o op y n tr st) Q end) by (intros []; auto).
  fork E1.
  - apply Hfin in H. destruct (SrvRversion ns x b) eqn:Es; go.
    + apply H; [cell|cell| |auto]. intros a A1 A2. cell.
    + apply H.
  - destruct v.
    + go. (let rec cases := go;
        lazymatch goal with
        | |- wp _ _ (if ?c then _ else _) _ _ => let E2 := fresh "E" in destruct c eqn:E2; [apply Hfin in H | cases]
        | _ => idtac
        end in cases).
      all: try (lazymatch type of H with match ?r with _ => _ end => destruct r eqn:Es end; go; first [apply H; [cell|cell|intros a A1 A2; cell|auto] | apply H]).
      apply H; [cell|cell|intros a A1 A2; cell|auto].
    + destruct b as [[|d0 [|d1 ds]] sp]; cbn [unread] in *; go.
      * apply H.
      * apply H.
      * apply H; [cell|cell|intros a A1 A2; cell|eauto].
Qed.


(** The size field, computed in int64 *)
Lemma swrap64 z : (0 <= z < 9223372036854775808)%Z -> swrap 64 z = z.
Proof. intros H. unfold swrap. cbn [pow2]. change (Z.of_N 18446744073709551616) with 18446744073709551616%Z. rewrite Z.mod_small by lia.
  replace (18446744073709551616 / 2)%Z with 9223372036854775808%Z by reflexivity. destruct (Z.ltb_spec z 9223372036854775808); [reflexivity|lia]. Qed.
Lemma swrap64_neg z : (-9223372036854775808 <= z < 0)%Z -> swrap 64 z = z.
Proof. intros H. unfold swrap. cbn [pow2]. change (Z.of_N 18446744073709551616) with 18446744073709551616%Z.
  replace (z mod 18446744073709551616)%Z with (z + 18446744073709551616)%Z by (rewrite <- (Z_mod_plus_full z 1), Z.mod_small; lia).
  replace (18446744073709551616 / 2)%Z with 9223372036854775808%Z by reflexivity. destruct (Z.ltb_spec (z + 18446744073709551616) 9223372036854775808); lia. Qed.
Lemma size_z l0 l1 l2 l3 :
  Z.to_nat (swrap 64 (swrap 64 (swrap 64 (swrap 64 (Z.of_N (b2n l0) + swrap 64 (Z.shiftl (Z.of_N (b2n l1)) 8)) + swrap 64 (Z.shiftl (Z.of_N (b2n l2)) 16)) + swrap 64 (Z.shiftl (Z.of_N (b2n l3)) 24)) - 7))
  = N.to_nat (b2n l0 + N.shiftl (b2n l1) 8 + N.shiftl (b2n l2) 16 + N.shiftl (b2n l3) 24 - 7).
Proof.
  pose proof (b2n_lt l0). pose proof (b2n_lt l1). pose proof (b2n_lt l2). pose proof (b2n_lt l3).
  rewrite !Z.shiftl_mul_pow2 by lia. rewrite !N.shiftl_mul_pow2. change (2 ^ 8)%Z with 256%Z. change (2 ^ 16)%Z with 65536%Z. change (2 ^ 24)%Z with 16777216%Z.
  change (2 ^ 8) with 256. change (2 ^ 16) with 65536. change (2 ^ 24) with 16777216.
  generalize dependent (b2n l0). generalize dependent (b2n l1). generalize dependent (b2n l2). generalize dependent (b2n l3). intros d ? c ? b ? a ?.
  rewrite (swrap64 (_ * 256)), (swrap64 (_ * 65536)), (swrap64 (_ * 16777216)) by lia.
  rewrite (swrap64 (Z.of_N a + _)), (swrap64 (Z.of_N a + _ + _)), (swrap64 (Z.of_N a + _ + _ + _)) by lia.
  set (z := (Z.of_N a + _ + _ + _)%Z). assert (z = Z.of_N (a + b * 256 + c * 65536 + d * 16777216)) as -> by (subst z; lia).
  destruct (N.le_gt_cases 7 (a + b * 256 + c * 65536 + d * 16777216)).
  - rewrite swrap64 by lia. lia.
  - rewrite swrap64_neg by lia. lia.
Qed.
(** All cells below nx0 except the two belonging to the connection are as in hp0. *)
Definition framed (hp0 : N -> option value) (nx0 S C : N) (hp : N -> option value) : Prop := forall a, a < nx0 -> a <> S -> a <> C -> hp a = hp0 a.
Definition serve_ends (Q : ending -> memory (cworld St) -> Prop) hp0 nx0 Li S C nine rn chan st (o : list bytes) (r : Server.run St) : Prop :=
  if r_crashed r then forall hp nx i t tr, Q Panicked (store hp nx i (o ++ r_out r) true (NS (r_st r)) t tr st)
  else forall hp nx i t tr, hp C = Some (v_conn Li S (VObj (str "net.Conn") rn) remote chan true) -> hp S = Some (v_server nine (Versioned (r_st r))) ->
       framed hp0 nx0 S C hp ->
       Q (Returned []) (store hp nx i (o ++ r_out r) false (NS (r_st r)) t tr st).
Ltac logs := eapply conn_logf_runs; [cell|cell|eassumption|]; let tr := fresh "tr" in intros tr; go.
Ltac frame := match goal with Hf : framed ?hp0 _ _ _ _ |- framed ?hp0 _ _ _ _ => let a := fresh in let A1 := fresh in let A2 := fresh in let A3 := fresh in intros a A1 A2 A3; rewrite <- (Hf a A1 A2 A3); cell end.
Lemma net_read_len n evs bs r : net_read n evs = RdData bs r -> (List.length bs <= n)%nat.
Proof. destruct evs as [|[c|] r']; cbn [net_read]; intros En; try discriminate. injection En as <- _. apply firstn_le_length. Qed.
Lemma loop_runs hp0 nx0 cr ad tra mp Li S C nine rn chan st Q : is_trace tra -> Li <> S -> Li <> C -> S <> C -> RN <> Li -> RN <> C -> RN <> S ->
  forall n evs hp nx v o x t tr, (pending evs < n)%nat ->
  hp Li = Some (v_listener cr ad tra mp) -> hp C = Some (v_conn Li S (VObj (str "net.Conn") rn) remote chan false) ->
  hp S = Some (v_server nine v) -> hp RN = Some v_names ->
  Li < nx -> S < nx -> C < nx -> RN < nx -> nx0 <= nx -> framed hp0 nx0 S C hp ->
  serve_ends Q hp0 nx0 Li S C nine rn chan st o (serve_from ns E t (mkSrv v x) evs) ->
  WP (serve_loop C rn) (store hp nx evs o true x t tr st) Q.
Proof.
  intros Ht N1 N2 N3 N4 N5 N6. induction n as [|n IH]; intros evs hp nx v o x t tr Hn HL HC HS HR L1 L2 L3 L4 L5 Hf H; [lia|].
  rewrite serve_unfold in H. pose proof (@serve_iter_pending St ns E t (mkSrv v x) evs) as Hp.
  unfold serve_iter in H, Hp.
  go1. go. change (N.to_nat (Z.to_N 7)) with 7%nat. destruct (net_read 7 evs) as [| |bs evs1] eqn:En.
  - change 7%nat with (N.to_nat (Z.to_N 7)) in En. go. logs. unfold serve_ends in H. cbn [r_crashed r_out r_st] in H.
    rewrite app_nil_r in H. apply H; [cell|cell|frame].
  - change 7%nat with (N.to_nat (Z.to_N 7)) in En. go. logs. unfold serve_ends in H. cbn [r_crashed r_out r_st] in H.
    rewrite app_nil_r in H. apply H; [cell|cell|frame].
  - assert (Hl : (List.length bs <= 7)%nat).
    { eapply net_read_len; eassumption. }
    destruct (Nat.eq_dec (List.length bs) 7) as [H7|H7].
    2: { assert (Z.of_N (blen bs) <? 7 = true)%Z by (unfold blen; lia).
         assert (H' : serve_ends Q hp0 nx0 Li S C nine rn chan st o (mkRun [] false (mkSrv v x))).
         { destruct bs as [|? [|? [|? [|? [|? [|? [|? [|]]]]]]]]; solve [exact H | exfalso; apply H7; reflexivity]. }
         clear H. rename H' into H.
         change 7%nat with (N.to_nat (Z.to_N 7)) in En. go. logs.
         unfold serve_ends in H. cbn [r_crashed r_out r_st] in H. rewrite app_nil_r in H. apply H; [cell|cell|frame]. }
    destruct bs as [|l0 [|l1 [|l2 [|l3 [|l4 [|l5 [|l6 [|]]]]]]]]; try discriminate. clear Hl H7.
    change 7%nat with (N.to_nat (Z.to_N 7)) in En. cbv zeta in H, Hp. rewrite <- size_z in H, Hp.
    destruct (copy_limit (Z.to_nat _) evs1) as [[body evs2]|] eqn:Ec.
    2: { go. logs. unfold serve_ends in H. cbn [r_crashed r_out r_st] in H. rewrite app_nil_r in H. apply H; [cell|cell|frame]. }
    go. logs.
    eapply (Dispatch_runs nine v (Buf ([l5; l6] ++ body) (e_spare E t))); [cell|cell|cell|lia|lia|lia|].
    destruct (Dispatch ns (mkSrv v x) (Buf ([l5; l6] ++ body) (e_spare E t)) (b2n l4)) as [[v' x'] out|] eqn:Ed.
    2: { intros hp'. unfold serve_ends in H. cbn [r_crashed r_out r_st] in H. rewrite app_nil_r in H. apply H. }
    cbn [Versioned NS]. intros hp' err P1 P2 P3 P4. 
    assert (HL' : hp' Li = Some (v_listener cr ad tra mp)) by (rewrite P3 by lia; cell).
    assert (HC' : hp' C = Some (v_conn Li S (VObj (str "net.Conn") rn) remote chan false)) by (rewrite P3 by lia; cell).
    assert (HR' : hp' RN = Some v_names) by (rewrite P3 by lia; cell).
    assert (HN' : hp' nx = Some (VArr [l0; l1; l2; l3; l4; l5; l6])) by (rewrite P3 by lia; cell).
    assert (Hf' : framed hp0 nx0 S C hp') by (intros a A1 A2 A3; rewrite P3 by lia; rewrite <- (Hf a A1 A2 A3); cell).
    clear P3 Hf.
    destruct (e_write E t) as [kw|] eqn:Ew.
    + unfold serve_ends in H. cbn [r_crashed r_out r_st Versioned NS] in H.
      destruct P4 as [->|(er & ->)]; go; logs; logs; try logs; (apply H; [cell|cell|frame]).
    + assert (Hp' := Hp _ _ _ eq_refl).
      assert (Fin : forall tr, WP (serve_loop C rn) (store hp' (nx + 1 + 1) evs2 (o ++ [out]) true x' (Datatypes.S t) tr st) Q).
      { intros tr'. eapply IH; try eassumption; try lia. revert H. unfold serve_ends.
        cbn [r_crashed r_out r_st]. rewrite <- app_assoc. exact (fun H => H). }
      destruct P4 as [->|(er & ->)]; go; logs; logs; try logs; apply Fin.
Qed.

(** server.go:201-244: the whole of conn.serve *)
Lemma serve_runs hp0 nx0 cr ad tra mp Li S C nine addr v rn chan hp nx evs o x t tr st Q :
  is_trace tra -> hp Li = Some (v_listener cr ad tra mp) -> hp C = Some (v_conn Li S (VObj (str "net.Conn") rn) addr chan false) ->
  hp S = Some (v_server nine v) -> hp RN = Some v_names ->
  Li <> S -> Li <> C -> S <> C -> RN <> Li -> RN <> C -> RN <> S -> Li < nx -> S < nx -> C < nx -> RN < nx -> nx0 <= nx -> framed hp0 nx0 S C hp ->
  serve_ends Q hp0 nx0 Li S C nine rn chan st o (serve_from ns E t (mkSrv v x) evs) ->
  WP (start (str "conn.serve") [VPtr (str "conn") C []] []) (store hp nx evs o true x t tr st) Q.
Proof.
  intros Ht HL HC HS HR N1 N2 N3 N4 N5 N6 L1 L2 L3 L4 L5 Hf H. go1. go. logs.
  eapply (loop_runs hp0 nx0 cr ad tra mp Li S C nine rn chan st Q); try eassumption; try (cell; fail); eauto; try solve [cell]; frame.
Qed.
End Conn.
