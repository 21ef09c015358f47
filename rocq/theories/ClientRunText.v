(** The goroutines of client.go, request by request. *)
From Verif Require Import Base GoBuf CodecPrim Types Codec Rpc GoSyntax Ufs GoRun GoFmt GoProg GoWp Server ServerRun ServerRunLemmas Client ClientLemmas ClientLemmas6 ClientRun ClientRunLemmas.
From Coq Require String Ascii.
Local Opaque NumTags.

Section Text.
Context (RN : N) (opt : oserr + (value * value * value * N)) (C tg fc fs wn rn tn msz : N) (tr hn : bool).
Notation M := (memory nworld).
Notation P := protocol_program.
Notation leads := (leads RN opt).
Notation Base := (base RN C tg fc fs wn rn tn msz tr hn).
Notation Boxed := (boxed RN C tg fc fs wn rn tn msz tr hn).
Notation HasReply := (has_reply RN C tg fc fs wn rn tn msz tr hn).
Notation HasBoth := (has_both RN C tg fc fs wn rn tn msz tr hn).
Notation HasCall := (has_call RN C tg fc fs wn rn tn msz tr hn).
Notation HasArr := (has_arr RN C tg fc fs wn rn tn msz tr hn).
Notation HasBuf := (has_buf RN C tg fc fs wn rn tn msz tr hn).

(** * IO, client.go:148-168 *)
Definition at_panic (r : res) : Prop := r = GoRun.Panic \/ exists f, r = Maybe None f.
Definition at_vreturn B t (r : res) : Prop := exists m, r = Ask (RSend (v_chan tg) (VU 16 t)) m /\
  forall Q, leads (Boxed B) (io_loop B) Q -> leads (Boxed B) (resume m []) Q.
Definition at_deliver B b t ch (r : res) : Prop := exists m, r = Ask (RSend (v_chan ch) (VBytes b)) m /\ leads (Boxed B) (resume m []) (at_vreturn B t).
Definition at_lookup B a b (r : res) : Prop :=
  let t := tag_of b in
  exists m, r = Ask (RLoad C [SF (str "RPC")]) m /\ forall L, List.length L = NumTags ->
    (nth_error L (N.to_nat t - 1) = Some VNil -> leads (HasReply B a b) (resume m [VList L]) at_panic) /\
    (forall ac ch, nth_error L (N.to_nat t - 1) = Some (VPtr (str "RPCCall") ac []) ->
       leads (HasBoth B a b ac ch) (resume m [VList L]) (at_deliver B b t ch)).
Definition doomed b : bool := (tag_of b <? 1) || (N.of_nat NumTags <=? tag_of b - 1) || negb tr.
Definition at_have B a b (r : res) : Prop := if doomed b then at_panic r else at_lookup B a b r.
Definition at_vrecv B (r : res) : Prop := exists m, r = Ask (RRecv (v_chan fs)) m /\
  (forall a b, (7 <= List.length b)%nat -> leads (HasReply B a b) (resume m [VPtr (str "RPCReply") a []]) (at_have B a b)) /\
  leads (Boxed B) (resume m [VNil]) at_panic.

(** * The sender, client.go:124-146 *)
Definition set5 (t : N) (q : bytes) : bytes := firstn 5 q ++ u8 (t mod 256) :: skipn 6 q.
Definition at_sfatal (r : res) : Prop := exists vs m, r = Ask (RExt (str "log.Fatalf") vs) m.
Definition at_sdead B (r : res) : Prop := exists m, r = Ask (RStore C [SF (str "Dead")] (VBool true)) m /\ leads (Boxed B) (resume m []) at_sfatal.
Definition at_swrite B q (r : res) : Prop := exists m, r = Ask (RExt (str "io.WriteCloser.Write") [VObj (str "io.WriteCloser") wn; VBytes q]) m /\
  (forall Q z, leads (Boxed B) (snd_loop B) Q -> leads (Boxed B) (resume m [VI 64 z; VNil]) Q) /\
  (forall z e, leads (Boxed B) (resume m [VI 64 z; VErr e]) (at_sdead B)).
Definition at_sslot B a t q ch (r : res) : Prop := exists m, r = Ask (RStore C [SF (str "RPC"); SI (N.to_nat t - 1)] (VPtr (str "RPCCall") a [])) m /\
  leads (HasCall B a q ch) (resume m []) (at_swrite B q).
Definition at_s6 B a t q ch (r : res) : Prop := exists m, r = Ask (RStore a [SF (str "b"); SI 6] (VU 8 (N.shiftr t 8 mod 256))) m /\
  leads (HasCall B a (set_tag t q) ch) (resume m []) (at_sslot B a t (set_tag t q) ch).
Definition at_s5 B a t q ch (r : res) : Prop := exists m, r = Ask (RStore a [SF (str "b"); SI 5] (VU 8 (t mod 256))) m /\
  leads (HasCall B a (set5 t q) ch) (resume m []) (at_s6 B a t q ch).
Definition at_stag B a (r : res) : Prop := exists m, r = Ask (RRecv (v_chan tg)) m /\
  forall t q ch, 1 <= t -> t <= N.of_nat NumTags -> (7 <= List.length q)%nat -> leads (HasCall B a q ch) (resume m [VU 16 t]) (at_s5 B a t q ch).
Definition at_srecv B (r : res) : Prop := exists m, r = Ask (RRecv (v_chan fc)) m /\
  forall a, leads (Boxed B) (resume m [VPtr (str "RPCCall") a []]) (at_stag B a).

(** The beginning of IO, client.go:123-124: c is shared with the new goroutine. *)
Definition at_go B (r : res) : Prop := exists m, r = Ask (RGo (snd_start B) []) m /\ forall Q, leads (Boxed B) (io_loop B) Q -> leads (Boxed B) (resume m []) Q.
Definition at_box (r : res) : Prop := exists m, r = Ask (RNew (v_c C)) m /\ forall B, leads (Boxed B) (resume m [VPtr (str "Client") B []]) (at_go B).

(** * readNetPackets, client.go:77-121 *)
Definition at_end (r : res) : Prop := exists vs, r = GoRun.Ret vs.
Definition at_gone (r : res) : Prop := exists m, r = Ask (RStore C [SF (str "Dead")] (VBool true)) m /\ leads Base (resume m []) at_end.
Definition at_close (r : res) : Prop := exists m, r = Ask (RExt (str "close") [v_chan fs]) m /\ leads Base (resume m []) at_end.
Definition at_ndead (r : res) : Prop := exists m, r = Ask (RStore C [SF (str "Dead")] (VBool true)) m /\ leads Base (resume m []) at_close.
Definition at_nsend a (r : res) : Prop := exists m, r = Ask (RSend (v_chan fs) (VPtr (str "RPCReply") a [])) m /\
  forall Q, leads Base (net_loop C fs rn) Q -> leads Base (resume m []) Q.
Definition at_nreply p (r : res) : Prop := exists m, r = Ask (RNew (v_reply p)) m /\ forall a, leads Base (resume m [VPtr (str "RPCReply") a []]) (at_nsend a).
Definition size_of (h : bytes) : N := b2n (nth 0 h x00) + N.shiftl (b2n (nth 1 h x00)) 8 + N.shiftl (b2n (nth 2 h x00)) 16 + N.shiftl (b2n (nth 3 h x00)) 24.
Definition at_ncopy a h b (r : res) : Prop := exists m, (exists n, r = Ask (RExt (str "io.Copy") [VPtr (str "bytes.Buffer") b []; VStruct (str "io.LimitedReader") [(str "N", VI 64 n)]]) m /\
    Z.to_nat n = N.to_nat (size_of h - 7)) /\
  (forall c z, leads (HasBuf a h b (Buf (h ++ c) [])) (resume m [VI 64 z; VNil]) (at_nreply (h ++ c))) /\
  (forall z e, leads Base (resume m [VI 64 z; VErr e]) at_ndead).
Definition at_nbuf a h (r : res) : Prop := exists m, r = Ask (RExt (str "bytes.NewBuffer") [VSl a 0 7]) m /\
  forall b, leads (HasArr a h) (resume m [VPtr (str "bytes.Buffer") b []]) (at_ncopy a h b).
Definition at_nread a (r : res) : Prop := exists m, r = Ask (RExt (str "io.ReadCloser.Read") [VObj (str "io.ReadCloser") rn; VSl a 0 7]) m /\
  (forall h, List.length h = 7%nat -> leads (HasArr a h) (resume m [VI 64 7; VNil]) (at_nbuf a h)) /\
  (forall z, (z < 7)%Z -> leads Base (resume m [VI 64 z; VNil]) at_ndead) /\
  (forall z e, leads Base (resume m [VI 64 z; VErr e]) at_ndead).
Definition at_nmake (r : res) : Prop := exists m, r = Ask (RExt (str "makebytes") [VI 64 7]) m /\ forall a, leads Base (resume m [VSl a 0 7]) (at_nread a).
Definition at_nload (r : res) : Prop := exists m, r = Ask (RLoad C [SF (str "Dead")]) m /\
  leads Base (resume m [VBool true]) at_close /\ leads Base (resume m [VBool false]) at_nmake.
End Text.
Lemma in_bounds {A} (l : list A) z : (0 <= z)%Z -> (Z.to_nat z < List.length l)%nat -> bounds_ok 0 (z + 1) (Z.of_N (blen l)) = true.
Proof. intros H0 H. unfold bounds_ok, blen. rewrite !andb_true_iff, !Z.leb_le. lia. Qed.
Lemma set5_length t q : (7 <= List.length q)%nat -> List.length (set5 t q) = List.length q.
Proof. intros H. do 7 (destruct q as [|? q]; [cbn in H; lia|]). reflexivity. Qed.
Lemma set6 t q : (7 <= List.length q)%nat -> firstn 6 (set5 t q) ++ u8 (N.shiftr t 8 mod 256) :: skipn 7 (set5 t q) = set_tag t q.
Proof.
  intros H. do 7 (destruct q as [|? q]; [cbn in H; lia|]). unfold set5, set_tag. cbn [firstn skipn app].
  do 5 f_equal. unfold u8. rewrite !N.mod_mod by lia. reflexivity.
Qed.

Section Proofs.
Context (RN : N) (opt : oserr + (value * value * value * N)) (C tg fc fs wn rn tn msz : N) (tr hn : bool).
Notation M := (memory nworld).
Notation P := protocol_program.
Notation leads := (leads RN opt).
Notation Base := (base RN C tg fc fs wn rn tn msz tr hn).
Notation Boxed := (boxed RN C tg fc fs wn rn tn msz tr hn).
Notation HasReply := (has_reply RN C tg fc fs wn rn tn msz tr hn).
Notation HasBoth := (has_both RN C tg fc fs wn rn tn msz tr hn).
Notation HasCall := (has_call RN C tg fc fs wn rn tn msz tr hn).
Notation HasArr := (has_arr RN C tg fc fs wn rn tn msz tr hn).
Notation HasBuf := (has_buf RN C tg fc fs wn rn tn msz tr hn).

Notation at_vrecv := (at_vrecv RN opt C tg fc fs wn rn tn msz tr hn).
Notation at_box := (at_box RN opt C tg fc fs wn rn tn msz tr hn).
Notation at_nload := (at_nload RN opt C tg fc fs wn rn tn msz tr hn).
Notation at_gone := (at_gone RN opt C tg fc fs wn rn tn msz tr hn).
Notation at_srecv := (at_srecv RN opt C tg fc fs wn rn tn msz tr hn).
Lemma io_loop_leads B : leads (Boxed B) (io_loop B) (at_vrecv B).
Proof.
  lgo1. lgo. lhere. split.
  - intros a b Hb. destruct (nth_error b 5) as [b5|] eqn:E5; [|exfalso; apply nth_error_None in E5; lia].
    destruct (nth_error b 6) as [b6|] eqn:E6; [|exfalso; apply nth_error_None in E6; lia].
    assert (Et : N.lor (b2n b5) (N.shiftl (b2n b6) 8 mod 65536) = tag_of b) by (unfold tag_of; rewrite (nth_error_nth _ _ _ E5), (nth_error_nth _ _ _ E6); reflexivity).
    assert (Ht : tag_of b < 65536) by apply tag_lt.
    unfold at_have, at_lookup, doomed. generalize dependent (tag_of b). intros t Et Ht.
    destruct tr eqn:Etr; cbn [negb]; rewrite ?orb_true_r, ?orb_false_r.
    + lgo. change (Z.to_nat 5) with 5%nat. rewrite E5. lgo. change (Z.to_nat 6) with 6%nat. rewrite E6. lgo. rewrite Et.
      lfork E1; cbn [orb]; lgo; [left; reflexivity|]. apply N.ltb_ge in E1.
      assert (Em : (t + (65536 - 1)) mod 65536 = t - 1). { replace (t + (65536 - 1)) with ((t - 1) + 1 * 65536) by lia. rewrite N.mod_add, N.mod_small by lia. reflexivity. }
      lrpc L EL. lgo.
      lfork E2; rewrite Em in E2; apply Z.leb_le in E2 || apply Z.leb_gt in E2; unfold blen in E2; rewrite EL in E2.
      * replace (N.of_nat NumTags <=? t - 1) with true by (symmetry; apply N.leb_le; lia). lgo. lrpc L' EL'. lgo. left. reflexivity.
      * replace (N.of_nat NumTags <=? t - 1) with false by (symmetry; apply N.leb_gt; lia). lgo. lrpc L' EL'. lgo.
        replace (N.to_nat ((t + (65536 - 1)) mod 65536)) with (N.to_nat t - 1)%nat by lia.
        destruct (nth_error L' (N.to_nat t - 1)) as [v|] eqn:En; [|exfalso; apply nth_error_None in En; lia]. lgo.
        cbn [orb]. lhere. intros L2 EL2. split; [intros En2|intros ac ch En2]; lgo; replace (N.to_nat ((t + (65536 - 1)) mod 65536)) with (N.to_nat t - 1)%nat by lia; rewrite En2; lgo.
        -- left. reflexivity.
        -- lhere. lgo. lhere. intros Q HQ. lgo. exact HQ.
    + lgo. change (Z.to_nat 5) with 5%nat. rewrite E5. lgo. change (Z.to_nat 6) with 6%nat. rewrite E6. lgo. rewrite Et.
      lfork E1; lgo; [left; reflexivity|]. apply N.ltb_ge in E1.
      assert (Em : (t + (65536 - 1)) mod 65536 = t - 1). { replace (t + (65536 - 1)) with ((t - 1) + 1 * 65536) by lia. rewrite N.mod_add, N.mod_small by lia. reflexivity. }
      lrpc L EL. lgo.
      lfork E2; rewrite Em in E2; apply Z.leb_le in E2 || apply Z.leb_gt in E2; unfold blen in E2; rewrite EL in E2.
      * lgo. lrpc L' EL'. lgo. left. reflexivity.
      * lgo. lrpc L' EL'. lgo. replace (N.to_nat ((t + (65536 - 1)) mod 65536)) with (N.to_nat t - 1)%nat by lia.
        destruct (nth_error L' (N.to_nat t - 1)) as [v|] eqn:En; [|exfalso; apply nth_error_None in En; lia]. lgo. left. reflexivity.
  - destruct tr; lgo; left; reflexivity.
Qed.

Lemma snd_loop_leads B : leads (Boxed B) (snd_loop B) (at_srecv B).
Proof.
  lgo1. lgo. lhere. intros a. lgo. lhere. intros t q ch H1 H2 Hq.
  assert (H3 : NumTags = N.to_nat 65534) by reflexivity.
  assert (Ew : swrap 64 (Z.of_N t - 1) = (Z.of_N t - 1)%Z) by (apply swrap64; lia).
  assert (Ei : Z.to_nat (swrap 64 (Z.of_N t - 1)) = (N.to_nat t - 1)%nat) by lia.
  destruct tr.
  - lgo. rewrite in_bounds by lia. lgo. lhere. lgo. rewrite in_bounds by (rewrite ?set5_length; lia). lgo. lhere. lgo. lrpc L EL. lgo.
    rewrite in_bounds by lia. lgo. rewrite Ei. lhere. lgo. lhere. split.
    + intros Q z HQ. lgo. exact HQ.
    + intros z e. lgo. lhere. lgo. eapply (ld_adv _ _ [] 400); [machine_delta; constructed|]. left. eexists _, _. reflexivity.
  - lgo. rewrite in_bounds by lia. lgo. lhere. lgo. rewrite in_bounds by (rewrite ?set5_length; lia). lgo. lhere. lgo. lrpc L EL. lgo.
    rewrite in_bounds by lia. lgo. rewrite Ei. lhere. lgo. lhere. split.
    + intros Q z HQ. lgo. exact HQ.
    + intros z e. lgo. lhere. lgo. eapply (ld_adv _ _ [] 400); [machine_delta; constructed|]. left. eexists _, _. reflexivity.
Qed.
(** The beginning of IO. *)
Lemma io_start_leads : leads Base (start (str "Client.IO") [v_c C] []) at_box.
Proof.
  lgo. lhere. intros B. lgo. lhere. intros Q HQ. lgo. exact HQ.
Qed.
Lemma snd_start_leads B Q : leads (Boxed B) (snd_loop B) Q -> leads (Boxed B) (mkM (CApply (snd_start B) false Now []) [] [] []) Q.
Proof. intros HQ. lgo. exact HQ. Qed.
Lemma net_loop_leads : hn = true -> leads Base (net_loop C fs rn) at_nload.
Proof.
  intros ->. destruct tr.
  - lgo. lhere. split.
    + lgo. lhere. lgo. eexists. reflexivity.
    + lgo. lhere. intros a. lgo. lhere. repeat split.
      * intros h Hh. do 7 (destruct h as [|? h]; [discriminate|]). destruct h; [|discriminate]. lgo. lhere.
        intros b'. lgo. eapply (ld_adv _ _ [] 400); [machine_delta; constructed|]. left. eexists. split; [eexists; split; [reflexivity|apply size_z]|]. split.
        -- intros c z. lgo. lhere. intros a'. lgo. lhere. intros Q HQ. lgo. exact HQ.
        -- intros z e. lgo. lhere. lgo. lhere. lgo. eexists. reflexivity.
      * intros z Hz. lgo. replace (z <? 7)%Z with true by (symmetry; apply Z.ltb_lt; exact Hz). lgo. lhere. lgo. lhere. lgo. eexists. reflexivity.
      * intros z e. lgo. lhere. lgo. lhere. lgo. eexists. reflexivity.
  - lgo. lhere. split.
    + lgo. lhere. lgo. eexists. reflexivity.
    + lgo. lhere. intros a. lgo. lhere. repeat split.
      * intros h Hh. do 7 (destruct h as [|? h]; [discriminate|]). destruct h; [|discriminate]. lgo. lhere.
        intros b'. lgo. eapply (ld_adv _ _ [] 400); [machine_delta; constructed|]. left. eexists. split; [eexists; split; [reflexivity|apply size_z]|]. split.
        -- intros c z. lgo. lhere. intros a'. lgo. lhere. intros Q HQ. lgo. exact HQ.
        -- intros z e. lgo. lhere. lgo. lhere. lgo. eexists. reflexivity.
      * intros z Hz. lgo. replace (z <? 7)%Z with true by (symmetry; apply Z.ltb_lt; exact Hz). lgo. lhere. lgo. lhere. lgo. eexists. reflexivity.
      * intros z e. lgo. lhere. lgo. lhere. lgo. eexists. reflexivity.
Qed.
Lemma net_start_leads : leads Base (start (str "Client.readNetPackets") [v_c C] []) (if hn then at_nload else at_gone).
Proof.
  assert (HL := net_loop_leads). destruct hn.
  - specialize (HL eq_refl). destruct tr; lgo1; lgo; exact HL.
  - destruct tr; lgo1; lgo; lhere; lgo; eexists; reflexivity.
Qed.
End Proofs.
