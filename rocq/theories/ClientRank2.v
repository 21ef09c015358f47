(** Every step of a goroutine of client.go makes the numbers of ClientRank.v smaller. *)
From Verif Require Import Base GoBuf CodecPrim Types Codec Rpc GoSyntax Ufs GoRun GoFmt GoProg GoWp Server ServerLemmas ServerRun ServerRunLemmas
  Client ClientLemmas ClientLemmas2 ClientLemmas6 ClientRun ClientRunLemmas ClientRunText ClientRunSim ClientRunSim2 ClientRunSim3 ClientRank.
From Coq Require String Ascii.
Local Opaque NumTags all_tags.

Section Sim.
Context (RN : N) (opt : oserr + (value * value * value * N)) (C tg fc fs wn rn tn msz : N) (tr hn : bool) (cc : Prop).
Notation M := (memory nworld).
Notation P := protocol_program.
Notation leads := (leads RN opt).
Notation lstep := (lstep RN opt).
Notation v_cl := (v_cl tg fc fs wn rn tn msz tr hn).
Notation Base := (base RN C tg fc fs wn rn tn msz tr hn).
Notation memory_as := (memory_as RN C tg fc fs wn rn tn msz tr hn).
Notation io_q := (io_q RN opt C tg fc fs wn rn tn msz tr hn).
Notation snd_q := (snd_q RN opt C tg fc fs wn rn tn msz tr hn).
Notation rd_q := (rd_q RN opt C tg fc fs wn rn tn msz tr hn).
Notation io_r := (io_r RN opt C tg fc fs wn rn tn msz tr hn).
Notation snds_r := (snds_r RN opt C tg fc fs wn rn tn msz tr hn).
Notation rd_r := (rd_r RN opt C tg fc fs wn rn tn msz tr hn).
Notation after_q := (after_q RN opt C tg fc fs wn rn tn msz tr hn cc).
Notation calm := (calm C tg fc fs wn rn tn msz tr hn).
Notation ma_base Hm := (ma_base _ _ _ _ _ _ _ _ _ _ _ _ _ _ _ _ Hm).

(** What readNetPackets asks for is there. *)
Definition fed (m : machine) (s : M) : Prop :=
  (forall x a m1, step P m = Ask (RExt (str "io.ReadCloser.Read") [x; VSl a 0 7]) m1 -> exists h r, net_read 7 (w_net (rest s)) = RdData h r /\ List.length h = 7%nat) /\
  (forall b z m1, step P m = Ask (RExt (str "io.Copy") [VPtr (str "bytes.Buffer") b []; VStruct (str "io.LimitedReader") [(str "N", VI 64 z)]]) m1 -> copy_limit (Z.to_nat z) (w_net (rest s)) <> None).
Ltac calmly Hca := let X := fresh in let Y1 := fresh in let Y2 := fresh in let Y3 := fresh in let Y4 := fresh in
  intros X; destruct (Hca X) as (Y1 & Y2 & Y3 & Y4); try (exfalso; first [lia|congruence|apply Y4; reflexivity]); split; [first [exact Y1|auto; fail|eapply undead_keep; [|exact Y1]; assumption|eapply undead_keep; [|exact Y1]; apply keep_same; reflexivity|idtac]|split; [lia|split; lia]].
Lemma lt3_rank a e f f' : (f < f')%nat -> lt3 a e f a e f'. Proof. intros H. right. split; [reflexivity|]. right. auto. Qed.
Lemma lt3_cost a e f a' e' f' : (a < a')%nat -> lt3 a e f a' e' f'. Proof. intros H. left. exact H. Qed.
Lemma none L k s f s' us mi mn ms adr rch o f1 f2 f3 : crashed k = false -> covers L k -> memory_as adr rch s' us k ->
  io_r adr rch s' (closed k) f1 mi o (rcv k) -> rd_r s' f2 mn (rdr k) -> snds_r adr rch s' f3 ms o (snd_ k) ->
  (pend s' < pend s \/ pend s' = pend s /\ (f1 + f2 + f3 < f))%nat -> (cc -> calm s' f2 f3) -> after_q L k s f s' us (mi :: mn :: ms).
Proof. intros H1 H2 H3 H4 H5 H6 H7 H8. eapply did with (ls := []) (k' := k) (L' := L); try eassumption; [constructor|]. right. split; [reflexivity|]. exact H7. Qed.
Lemma one L k s f s' us mi mn ms l k' adr rch o f1 f2 f3 : cstep tr k l k' -> crashed k' = false -> callers k' = callers k -> covers L k -> memory_as adr rch s' us k' ->
  io_r adr rch s' (closed k') f1 mi o (rcv k') -> rd_r s' f2 mn (rdr k') -> snds_r adr rch s' f3 ms o (snd_ k') ->
  lt3 (cost L k') (pend s') (f1 + f2 + f3) (cost L k) (pend s) f -> (cc -> calm s' f2 f3) -> after_q L k s f s' us (mi :: mn :: ms).
Proof. intros H1 H2 H3 H4 H5 H6 H7 H8 H9 H10. eapply did with (ls := [l]) (k' := k') (L' := L); try eassumption; [apply csteps_one, H1|]. unfold covers. rewrite H3. exact H4. Qed.

Lemma rank_io adr rch s us k L mi mn ms o f1 f2 f3 I Q0 l m' s' : Inv k -> crashed k = false -> covers L k -> memory_as adr rch s us k ->
  io_q adr rch (closed k) f1 I Q0 o (rcv k) -> I s -> Q0 (step P mi) -> rd_r s f2 mn (rdr k) -> snds_r adr rch s f3 ms o (snd_ k) ->
  (cc -> calm s f2 f3) -> lstep mi s l m' s' -> after_q L k s (f1 + f2 + f3) s' us (m' :: mn :: ms).
Proof.
  intros HI Hc HL Hm Hio H Q Hrd Hsn Hca St. pose proof (ma_base Hm) as Hb.
  remember (rcv k) as v eqn:Ev. remember (closed k) as cl eqn:Ecl.
  destruct Hio as [|B|B|B Hcl|B a b|B a b|B a b t c|B t].
  - (* box *) destruct Q as (m1 & E & Q). destruct (lstep_plain _ _ _ _ _ _ _ _ _ St E eq_refl) as (vs & Ea & -> & ->). cbn in Ea. inversion Ea; subst. cbn [event].
    assert (Hm' := ma_new _ _ _ _ _ _ _ _ _ _ _ _ _ _ _ _ (v_c C) Hm). pose proof (ma_base Hm') as Hb'.
    assert (Hf := m_free _ _ _ _ _ _ _ _ _ _ _ _ _ _ _ _ Hm (free s) (N.le_refl _)).
    assert (K3 : keep 3 s (with_new s (v_c C))) by (apply keep_new, Hf).
    eapply none with (o := None) (f1 := 12%nat) (f2 := f2) (f3 := f3); [exact Hc|exact HL|exact Hm'| | |exact Hsn|right; split; [reflexivity|lia]|try solve [calmly Hca]].
    + rewrite <- Ev. eapply io_at; [apply iq_1 with (B := free s)| |apply Q]. split; [exact Hb'|]. cbn. apply put_cell_same.
    + eapply rd_rkeep with (s := s); [exact Hb'|apply keep_new, Hf|apply keep_new, Hf|exact Hrd].
  - (* go: not a step of its own *) destruct Q as (m1 & E & Q). destruct (lstep_plain _ _ _ _ _ _ _ _ _ St E eq_refl) as (vs & Ea & _). discriminate.
  - (* receive *) destruct Q as (m1 & E & Q1 & Q2). pose proof (m_fs _ _ _ _ _ _ _ _ _ _ _ _ _ _ _ _ Hm) as Ef.
    destruct (lstep_recv _ _ _ _ _ _ _ _ _ _ _ St E Ef) as (-> & [(v & b & Eb & _)|(_ & Ec & -> & ->)]); [discriminate|]. cbn in Ec.
    eapply none with (o := Some B) (f1 := 0%nat) (f2 := f2) (f3 := f3); [exact Hc|exact HL|exact Hm| |exact Hrd|exact Hsn|right; split; [reflexivity|lia]|try solve [calmly Hca]].
    rewrite <- Ev. eapply io_at; [apply iq_nil; exact Ec|exact H|apply Q2].
  - (* nil *) destruct (lstep_panic _ _ _ _ _ _ _ St Q).
  - (* look up *) unfold at_have in Q. destruct (doomed tr b) eqn:Ed; [destruct (lstep_panic _ _ _ _ _ _ _ St Q)|].
    destruct Q as (m1 & E & Q). destruct (lstep_plain _ _ _ _ _ _ _ _ _ St E eq_refl) as (vs & Ea & -> & ->).
    destruct (m_client _ _ _ _ _ _ _ _ _ _ _ _ _ _ _ _ Hm) as (Lr & dd & Ecl' & El & Hl). cbn [answer] in Ea. rewrite Ecl' in Ea. cbn in Ea. inversion Ea; subst vs s'.
    cbn [event]. unfold doomed in Ed. rewrite !orb_false_iff in Ed. destruct Ed as ((E1 & E2) & E3). apply negb_false_iff in E3.
    destruct (Q Lr El) as [QN QS].
    assert (Hm' : memory_as adr rch s us (mkC (tags k) (fid k) (rpc k) (queue k) (callers k) (snd_ k) (rdr k) (receive tr k b) (Client.user k) (fids k) false)) by (apply (ma_ext _ _ _ _ _ _ _ _ _ _ _ _ _ _ _ _ _ Hm); reflexivity).
    assert (Erec : receive tr k b = match rpc k (tag_of b) with None => VDoomed | Some c => VDeliver b (tag_of b) c end) by (unfold receive; rewrite E1, E2, E3; reflexivity).
    apply N.ltb_ge in E1. apply N.leb_gt in E2.
    assert (X : exists f1', (f1' < 4)%nat /\ io_r adr rch s (closed k) f1' (resume m1 [VList Lr]) (Some B) (receive tr k b)).
    { rewrite Erec. specialize (Hl (tag_of b) ltac:(lia) ltac:(lia)). destruct (rpc k (tag_of b)) as [c|] eqn:Er; cbn [slot] in Hl.
      - exists 3%nat. split; [lia|]. eapply io_at; [apply iq_del with (a := a)| |]. 
        + split; [exact H|]. destruct (i_slot k HI c _ Er) as (_ & q & Hq). destruct (m_call _ _ _ _ _ _ _ _ _ _ _ _ _ _ _ _ Hm c) as (q' & Eq & _); [destruct Hq as [Hq|(r & Hq)]; rewrite Hq; discriminate|]. eauto.
        + apply QS. exact Hl.
      - exists 0%nat. split; [lia|]. eapply io_at; [apply iq_doom with (a := a) (b := b)|exact H|]. apply QN. exact Hl. }
    destruct X as (f1' & Hlt & X).
    eapply one with (o := Some B) (f1 := f1') (f2 := f2) (f3 := f3); [apply (cs_lookup tr k b); auto|reflexivity|reflexivity|exact HL|exact Hm'| |exact Hrd|exact Hsn|apply lt3_rank; lia|try solve [calmly Hca]].
    exact X.
  - (* doomed *) destruct (lstep_panic _ _ _ _ _ _ _ St Q).
  - (* deliver: needs the caller *) destruct Q as (m1 & E & Q). symmetry in Ev. destruct (i_deliver_t k HI _ _ _ Ev) as (_ & q & Hq).
    destruct (m_call _ _ _ _ _ _ _ _ _ _ _ _ _ _ _ _ Hm c) as (q' & Eq & _ & Ech & _); [destruct Hq as [Hq|(r & Hq)]; rewrite Hq; discriminate|].
    destruct (lstep_send _ _ _ _ _ _ _ _ _ _ _ _ St E Ech) as (_ & _ & X & _). cbn in X. lia.
  - (* return the tag *) destruct Q as (m1 & E & Q). pose proof (m_tags _ _ _ _ _ _ _ _ _ _ _ _ _ _ _ _ Hm) as Et.
    destruct (lstep_send _ _ _ _ _ _ _ _ _ _ _ _ St E Et) as (-> & _ & X & -> & ->). cbn [ch_cap ch_buf] in *.
    assert (Hlen : (List.length (tags k) < NumTags)%nat) by (unfold blen in X; rewrite map_length in X; lia).
    assert (Hne : tg <> fs). { intros X1. pose proof (m_fs _ _ _ _ _ _ _ _ _ _ _ _ _ _ _ _ Hm) as Ef. rewrite <- X1, Et in Ef. discriminate. }
    pose proof (cs_return tr k t Hc (eq_sym Ev) Hlen) as Cs. match type of Cs with cstep _ _ _ ?k1 => set (k' := k1) in * end.
    assert (Hm' : memory_as adr rch (set_chan s tg (mkCh (N.of_nat NumTags) (map (VU 16) (tags k) ++ [VU 16 t]) false)) us k').
    { apply (ma_chan _ _ _ _ _ _ _ _ _ _ _ _ _ _ _ _ _ _ _ _ Hm Et); try reflexivity; auto.
      - rewrite put_chan_same. cbn [tags k']. rewrite map_app. reflexivity.
      - rewrite put_chan_other; [apply (m_fc _ _ _ _ _ _ _ _ _ _ _ _ _ _ _ _ Hm)|]. intros X1. apply (m_distinct _ _ _ _ _ _ _ _ _ _ _ _ _ _ _ _ Hm). auto.
      - rewrite put_chan_other by auto. apply (m_fs _ _ _ _ _ _ _ _ _ _ _ _ _ _ _ _ Hm). }
    pose proof (ma_base Hm') as Hb'.
    eapply one with (o := Some B) (f1 := 1%nat) (f2 := f2) (f3 := f3); [exact Cs|reflexivity|reflexivity|exact HL|exact Hm'| | | |apply lt3_rank; lia|try solve [calmly Hca]].
    + eapply io_at; [apply iq_wait|split; [exact Hb'|exact (proj2 H)]|apply Q, io_loop_leads].
    + eapply rd_rkeep with (s := s); [exact Hb'|apply keep_same; reflexivity|apply keep_same; reflexivity|exact Hrd].
    + eapply snds_rkeep with (s := s); [exact Hb'|apply keep_same; reflexivity|apply keep_same; reflexivity|exact Hsn].
Qed.

Lemma rank_snd adr rch s us k L mi mn m B f1 f2 f3 I Q0 l m' s' : Inv k -> crashed k = false -> covers L k -> memory_as adr rch s us k ->
  snd_q adr rch B f3 I Q0 (snd_ k) -> I s -> Q0 (step P m) -> io_r adr rch s (closed k) f1 mi (Some B) (rcv k) -> rd_r s f2 mn (rdr k) ->
  (cc -> calm s f2 f3) -> (cc -> forall x b m1 z e, step P m = Ask (RExt (str "io.WriteCloser.Write") [x; VBytes b]) m1 -> m' <> resume m1 [VI 64 z; VErr e]) ->
  lstep m s l m' s' -> after_q L k s (f1 + f2 + f3) s' us (mi :: mn :: [m']).
Proof.
  intros HI Hc HL Hm Hsn H Q Hio Hrd Hca Hwr St. pose proof (ma_base Hm) as Hb.
  assert (Htf : tg <> fs). { intros X1. pose proof (m_fs _ _ _ _ _ _ _ _ _ _ _ _ _ _ _ _ Hm) as Ef. rewrite <- X1, (m_tags _ _ _ _ _ _ _ _ _ _ _ _ _ _ _ _ Hm) in Ef. discriminate. }
  assert (Hcf : fc <> fs). { intros X1. pose proof (m_fs _ _ _ _ _ _ _ _ _ _ _ _ _ _ _ _ Hm) as Ef. rewrite <- X1, (m_fc _ _ _ _ _ _ _ _ _ _ _ _ _ _ _ _ Hm) in Ef. discriminate. }
  assert (Htc := m_distinct _ _ _ _ _ _ _ _ _ _ _ _ _ _ _ _ Hm).
  remember (snd_ k) as x eqn:Ex.
  destruct Hsn as [|c q Hq|c t q Hq|c t q Hq|c t q|c t q|c t q|c t q].
  - destruct Q as (m1 & E & Q). pose proof (m_fc _ _ _ _ _ _ _ _ _ _ _ _ _ _ _ _ Hm) as Ef.
    destruct (lstep_recv _ _ _ _ _ _ _ _ _ _ _ St E Ef) as (-> & [(v & b & Eb & -> & ->)|(_ & X & _)]); [|discriminate]. cbn [ch_buf ch_cap ch_closed] in *.
    destruct (queue k) as [|[c q] qs] eqn:Eq; [discriminate|]. cbn in Eb. inversion Eb; subst v b. clear Eb.
    pose proof (cs_take tr k c q qs Hc (eq_sym Ex) Eq) as Cs. match type of Cs with cstep _ _ _ ?k1 => set (k' := k1) in * end.
    assert (Hm' : memory_as adr rch (set_chan s fc (mkCh (N.of_nat NumTags) (map (fun x => p_call adr (fst x)) qs) false)) us k').
    { apply (ma_chan _ _ _ _ _ _ _ _ _ _ _ _ _ _ _ _ _ _ _ _ Hm Ef); try reflexivity; auto.
      - rewrite put_chan_other by auto. apply (m_tags _ _ _ _ _ _ _ _ _ _ _ _ _ _ _ _ Hm).
      - rewrite put_chan_same. reflexivity.
      - rewrite put_chan_other by auto. apply (m_fs _ _ _ _ _ _ _ _ _ _ _ _ _ _ _ _ Hm).
      - cbn [queue k']. rewrite Eq. intros y Hy. right. exact Hy. }
    pose proof (ma_base Hm') as Hb'.
    assert (Hin : In (c, q) (queue k)) by (rewrite Eq; left; reflexivity).
    assert (Ecall := m_send _ _ _ _ _ _ _ _ _ _ _ _ _ _ _ _ Hm c q (or_intror Hin)).
    assert (Hq : (7 <= List.length q)%nat).
    { destruct (queued k c q HI Hin) as (q0 & Hq0). destruct (m_call _ _ _ _ _ _ _ _ _ _ _ _ _ _ _ _ Hm c) as (q' & E' & Hl' & _); [congruence|].
      rewrite Ecall in E'. inversion E'; subst. exact Hl'. }
    eapply one with (o := Some B) (f1 := f1) (f2 := f2) (f3 := 0%nat); [exact Cs|reflexivity|reflexivity|exact HL|exact Hm'| | | |apply lt3_cost; unfold cost; cbn [queue snd_ k']; rewrite <- Ex; cbn [wsnd]; rewrite ?Eq; cbn [List.length]; lia|try solve [calmly Hca]].
    + eapply io_rkeep with (s := s); [exact Hb'|apply keep_same; reflexivity|apply keep_keep_calls, keep_same; reflexivity| |exact Hio]. auto.
    + eapply rd_rkeep with (s := s); [exact Hb'|apply keep_same; reflexivity|apply keep_same; reflexivity|exact Hrd].
    + eapply snd_at; [apply sq_call; exact Hq| |].
      * split; [split; [exact Hb'|exact (proj2 H)]|exact Ecall].
      * eapply ld_stronger; [|apply Q]. intros s1 (H1 & _). exact H1.
  - destruct Q as (m1 & E & Q). pose proof (m_tags _ _ _ _ _ _ _ _ _ _ _ _ _ _ _ _ Hm) as Ef.
    destruct (lstep_recv _ _ _ _ _ _ _ _ _ _ _ St E Ef) as (-> & [(v & b & Eb & -> & ->)|(_ & X & _)]); [|discriminate]. cbn [ch_buf ch_cap ch_closed] in *.
    destruct (tags k) as [|t ts] eqn:Et; [discriminate|]. cbn in Eb. inversion Eb; subst v b. clear Eb.
    destruct (good_tags k t HI) as (Ht1 & Ht2); [rewrite Et; left; reflexivity|].
    pose proof (cs_tag tr k c q t ts Hc (eq_sym Ex) Et) as Cs. match type of Cs with cstep _ _ _ ?k1 => set (k' := k1) in * end.
    assert (Hm' : memory_as adr rch (set_chan s tg (mkCh (N.of_nat NumTags) (map (VU 16) ts) false)) us k').
    { apply (ma_chan _ _ _ _ _ _ _ _ _ _ _ _ _ _ _ _ _ _ _ _ Hm Ef); try reflexivity; auto.
      - rewrite put_chan_same. reflexivity.
      - rewrite put_chan_other by auto. apply (m_fc _ _ _ _ _ _ _ _ _ _ _ _ _ _ _ _ Hm).
      - rewrite put_chan_other by auto. apply (m_fs _ _ _ _ _ _ _ _ _ _ _ _ _ _ _ _ Hm). }
    pose proof (ma_base Hm') as Hb'.
    eapply one with (o := Some B) (f1 := f1) (f2 := f2) (f3 := 3%nat); [exact Cs|reflexivity|reflexivity|exact HL|exact Hm'| | | |apply lt3_cost; unfold cost; cbn [queue snd_ k']; rewrite <- Ex; cbn [wsnd]; rewrite ?Eq; cbn [List.length]; lia|try solve [calmly Hca]].
    + eapply io_rkeep with (s := s); [exact Hb'|apply keep_same; reflexivity|apply keep_keep_calls, keep_same; reflexivity| |exact Hio]. auto.
    + eapply rd_rkeep with (s := s); [exact Hb'|apply keep_same; reflexivity|apply keep_same; reflexivity|exact Hrd].
    + destruct H as ((_ & H1) & H2). eapply snd_at; [apply sq_5; exact Hq| |apply Q; assumption].
      split; [split; [exact Hb'|exact H1]|exact H2].
  - destruct Q as (m1 & E & Q). destruct (lstep_plain _ _ _ _ _ _ _ _ _ St E eq_refl) as (vs & Ea & -> & ->).
    destruct H as ((_ & H1) & H2). cbn [answer] in Ea. rewrite H2 in Ea.
    change (set_path [SF (str "b"); SI 5] (VU 8 (t mod 256)) (v_call q (rch c))) with (Some (v_call (set5 t q) (rch c))) in Ea. inversion Ea; subst vs s'. cbn [event].
    destruct (sending k c HI) as ((q0 & Hq0) & Hnq); [rewrite <- Ex; cbn; rewrite Nat.eqb_refl; lia|].
    assert (Hm' : memory_as adr rch (with_cell s (adr c) (v_call (set5 t q) (rch c))) us k).
    { apply (ma_call _ _ _ _ _ _ _ _ _ _ _ _ _ _ _ _ k _ _ Hm); try reflexivity; try congruence; [exact Hnq| |rewrite set5_length; assumption].
      intros [c' q'] Hx. destruct (queued _ _ _ HI Hx) as (q1 & E1). cbn. congruence. }
    pose proof (ma_base Hm') as Hb'.
    assert (K0 : keep 0 s (with_cell s (adr c) (v_call (set5 t q) (rch c)))) by (eapply keep_cell; [exact H2|discriminate]).
    assert (K1 : keep 1 s (with_cell s (adr c) (v_call (set5 t q) (rch c)))) by (eapply keep_cell; [exact H2|discriminate]).
    assert (K3 : keep 3 s (with_cell s (adr c) (v_call (set5 t q) (rch c)))) by (eapply keep_cell; [exact H2|discriminate]).
    eapply none with (o := Some B) (f1 := f1) (f2 := f2) (f3 := 2%nat); [exact Hc|exact HL|exact Hm'| | | |right; split; [reflexivity|lia]|try solve [calmly Hca]].
    + eapply io_rkeep with (s := s); [exact Hb'|exact K0| |intros X; exact X|exact Hio].
      intros a q1 ch1 E1. cbn. destruct (N.eq_dec a (adr c)) as [->|n]; [rewrite put_cell_same; rewrite H2 in E1; inversion E1; subst; eauto|rewrite put_cell_other by exact n; eauto].
    + eapply rd_rkeep with (s := s); [exact Hb'|exact K0|exact K1|exact Hrd].
    + rewrite <- Ex. eapply snd_at; [apply sq_6; exact Hq| |exact Q].
      split; [split; [exact Hb'|apply K0; [reflexivity|exact H1]]|]. cbn. apply put_cell_same.
  - destruct Q as (m1 & E & Q). destruct (lstep_plain _ _ _ _ _ _ _ _ _ St E eq_refl) as (vs & Ea & -> & ->).
    destruct H as ((_ & H1) & H2). cbn [answer] in Ea. rewrite H2 in Ea.
    change (set_path [SF (str "b"); SI 6] (VU 8 (N.shiftr t 8 mod 256)) (v_call (set5 t q) (rch c)))
      with (Some (v_call (firstn 6 (set5 t q) ++ u8 (N.shiftr t 8 mod 256) :: skipn 7 (set5 t q)) (rch c))) in Ea. rewrite set6 in Ea by exact Hq. inversion Ea; subst vs s'. cbn [event].
    destruct (sending k c HI) as ((q0 & Hq0) & Hnq); [rewrite <- Ex; cbn; rewrite Nat.eqb_refl; lia|].
    assert (Hm' : memory_as adr rch (with_cell s (adr c) (v_call (set_tag t q) (rch c))) us k).
    { apply (ma_call _ _ _ _ _ _ _ _ _ _ _ _ _ _ _ _ k _ _ Hm); try reflexivity; try congruence; [exact Hnq| |rewrite set_tag_length; assumption].
      intros [c' q'] Hx. destruct (queued _ _ _ HI Hx) as (q1 & E1). cbn. congruence. }
    pose proof (ma_base Hm') as Hb'.
    assert (K0 : keep 0 s (with_cell s (adr c) (v_call (set_tag t q) (rch c)))) by (eapply keep_cell; [exact H2|discriminate]).
    assert (K1 : keep 1 s (with_cell s (adr c) (v_call (set_tag t q) (rch c)))) by (eapply keep_cell; [exact H2|discriminate]).
    assert (K3 : keep 3 s (with_cell s (adr c) (v_call (set_tag t q) (rch c)))) by (eapply keep_cell; [exact H2|discriminate]).
    eapply none with (o := Some B) (f1 := f1) (f2 := f2) (f3 := 1%nat); [exact Hc|exact HL|exact Hm'| | | |right; split; [reflexivity|lia]|try solve [calmly Hca]].
    + eapply io_rkeep with (s := s); [exact Hb'|exact K0| |intros X; exact X|exact Hio].
      intros a q1 ch1 E1. cbn. destruct (N.eq_dec a (adr c)) as [->|n]; [rewrite put_cell_same; rewrite H2 in E1; inversion E1; subst; eauto|rewrite put_cell_other by exact n; eauto].
    + eapply rd_rkeep with (s := s); [exact Hb'|exact K0|exact K1|exact Hrd].
    + rewrite <- Ex. eapply snd_at; [apply sq_slot| |exact Q].
      split; [split; [exact Hb'|apply K0; [reflexivity|exact H1]]|]. cbn. apply put_cell_same.
  - destruct Q as (m1 & E & Q). destruct (lstep_plain _ _ _ _ _ _ _ _ _ St E eq_refl) as (vs & Ea & -> & ->).
    destruct (m_client _ _ _ _ _ _ _ _ _ _ _ _ _ _ _ _ Hm) as (Lr & dd & Ecl & El & Hl).
    cbn [answer] in Ea. rewrite Ecl in Ea.
    change (set_path [SF (str "RPC"); SI (N.to_nat t - 1)] (VPtr (str "RPCCall") (adr c) []) (v_cl (fid k) Lr dd))
      with (Some (v_cl (fid k) (set_nth (N.to_nat t - 1) (p_call adr c) Lr) dd)) in Ea. inversion Ea; subst vs s'. cbn [event]. clear Ea.
    assert (Ht : 1 <= t /\ t <= N.of_nat NumTags).
    { pose proof (i_tags k HI t) as X. rewrite <- Ex in X. cbn in X. rewrite N.eqb_refl in X. pose proof (valid_le t). assert (V : valid t = 1%nat) by lia.
      unfold valid in V. destruct (N.leb_spec 1 t), (N.leb_spec t (N.of_nat NumTags)); cbn in V; try discriminate. auto. }
    pose proof (cs_slot tr k c t q Hc (eq_sym Ex)) as Cs. match type of Cs with cstep _ _ _ ?k1 => set (k' := k1) in * end.
    assert (Hm' : memory_as adr rch (with_cell s C (v_cl (fid k') (set_nth (N.to_nat t - 1) (p_call adr c) Lr) dd)) us k').
    { apply (ma_client _ _ _ _ _ _ _ _ _ _ _ _ _ _ _ k k' _ dd Hm); try reflexivity.
      - rewrite set_nth_length. exact El.
      - intros t' H1 H2. rewrite nth_set_nth by (try reflexivity; lia). cbn [rpc k']. unfold updN.
        destruct (Nat.eqb_spec (N.to_nat t' - 1) (N.to_nat t - 1)), (N.eqb_spec t' t); try lia; [reflexivity|]. apply Hl; assumption. }
    pose proof (ma_base Hm') as Hb'. cbn [fid k'] in Hm', Hb'.
    match type of Hb' with base _ _ _ _ _ _ _ _ _ _ _ ?x => set (s' := x) in * end.
    assert (KK : forall n, n <> 3%nat -> keep n s s') by (intros n Hn; eapply keep_cell; [exact Ecl|cbn; auto]).
    assert (K3 : undead C tg fc fs wn rn tn msz tr hn s -> undead C tg fc fs wn rn tn msz tr hn s').
    { intros (f & L1 & X). rewrite Ecl in X. inversion X; subst. unfold s'. eexists _, _. cbn [cells with_cell]. apply put_cell_same. }
    eapply one with (o := Some B) (f1 := f1) (f2 := f2) (f3 := 12%nat); [exact Cs|reflexivity|reflexivity|exact HL|exact Hm'| | | |apply lt3_cost; unfold cost; cbn [queue snd_ k']; rewrite <- Ex; cbn [wsnd]; rewrite ?Eq; cbn [List.length]; lia|try solve [calmly Hca]].
    + eapply io_rkeep with (s := s); [exact Hb'|apply KK; lia|apply keep_keep_calls, KK; lia|intros X; exact X|exact Hio].
    + eapply rd_rkeep with (s := s); [exact Hb'|apply KK; lia|apply KK; lia|exact Hrd].
    + destruct H as ((_ & H1) & H2). eapply snd_at; [apply sq_write| |exact Q].
      split; [split; [exact Hb'|apply (KK 0%nat); [lia|reflexivity|exact H1]]|]. apply (KK 2%nat); [lia|reflexivity|exact H2].
  - destruct Q as (m1 & E & Q1 & Q2). destruct (lstep_write _ _ _ _ _ _ _ _ _ _ St E) as (-> & [(-> & z & ->)|(-> & z & e & ->)]).
    + pose proof (cs_write tr k c t q Hc (eq_sym Ex)) as Cs. match type of Cs with cstep _ _ _ ?k1 => set (k' := k1) in * end.
      eapply one with (o := Some B) (f1 := f1) (f2 := f2) (f3 := 0%nat); [exact Cs|reflexivity|reflexivity|exact HL|apply (ma_ext _ _ _ _ _ _ _ _ _ _ _ _ _ _ _ _ _ Hm); reflexivity|exact Hio|exact Hrd| |apply lt3_cost; unfold cost; cbn [queue snd_ k']; rewrite <- Ex; cbn [wsnd]; rewrite ?Eq; cbn [List.length]; lia|try solve [calmly Hca]].
      eapply snd_at; [apply sq_idle|exact (proj1 H)|apply Q1, snd_loop_leads].
    + eapply none with (o := Some B) (f1 := f1) (f2 := f2) (f3 := 11%nat); [exact Hc|exact HL|exact Hm|exact Hio|exact Hrd| |right; split; [reflexivity|lia]|intros X; destruct (Hwr X _ _ _ _ _ E eq_refl)].
      rewrite <- Ex. eapply snd_at; [apply sq_dead|exact (proj1 H)|apply Q2].
  - destruct Q as (m1 & E & Q). destruct (lstep_plain _ _ _ _ _ _ _ _ _ St E eq_refl) as (vs & Ea & -> & ->).
    destruct (m_client _ _ _ _ _ _ _ _ _ _ _ _ _ _ _ _ Hm) as (Lr & dd & Ecl & El & Hl).
    cbn [answer] in Ea. rewrite Ecl in Ea. change (set_path [SF (str "Dead")] (VBool true) (v_cl (fid k) Lr dd)) with (Some (v_cl (fid k) Lr true)) in Ea. inversion Ea; subst vs s'. cbn [event]. clear Ea.
    assert (Hm' := ma_client _ _ _ _ _ _ _ _ _ _ _ _ _ _ _ k k Lr true Hm El Hl eq_refl eq_refl eq_refl eq_refl).
    pose proof (ma_base Hm') as Hb'.
    match type of Hb' with base _ _ _ _ _ _ _ _ _ _ _ ?x => set (s' := x) in * end.
    assert (KK : forall n, n <> 3%nat -> keep n s s') by (intros n Hn; eapply keep_cell; [exact Ecl|cbn; auto]).
    eapply none with (o := Some B) (f1 := f1) (f2 := f2) (f3 := 10%nat); [exact Hc|exact HL|exact Hm'| | | |right; split; [reflexivity|lia]|intros X; destruct (Hca X) as (_ & _ & _ & Y); destruct (Y eq_refl)].
    + eapply io_rkeep with (s := s); [exact Hb'|apply KK; lia|apply keep_keep_calls, KK; lia|intros X; exact X|exact Hio].
    + eapply rd_rkeep with (s := s); [exact Hb'|apply KK; lia|apply KK; lia|exact Hrd].
    + rewrite <- Ex. eapply snd_at; [apply sq_fatal| |exact Q]. split; [exact Hb'|apply (KK 0%nat); [lia|reflexivity|exact (proj2 H)]].
  - destruct Q as (vs & m1 & E). destruct (lstep_fatal _ _ _ _ _ _ _ _ _ St E).
Qed.
Lemma rank_rd adr rch s us k L mi mn ms o f1 f2 f3 I Q0 l m' s' : Inv k -> crashed k = false -> covers L k -> memory_as adr rch s us k ->
  rd_q f2 I Q0 (rdr k) -> I s -> Q0 (step P mn) -> io_r adr rch s (closed k) f1 mi o (rcv k) -> snds_r adr rch s f3 ms o (snd_ k) ->
  (cc -> calm s f2 f3) -> (cc -> m' <> mn -> fed mn s) -> lstep mn s l m' s' -> after_q L k s (f1 + f2 + f3) s' us (mi :: m' :: ms).
Proof.
  intros HI Hc HL Hm Hrd H Q Hio Hsn Hca Hfe St. pose proof (ma_base Hm) as Hb.
  assert (Ne : forall J m2 f args mm, step P mn = Ask (RExt f args) mm -> hidden (RExt f args) = false -> leads J m2 (at_ndead RN opt C tg fc fs wn rn tn msz tr hn) -> m2 <> mn).
  { intros J m2 f args mm E Hh Ld ->. pose proof (ask_leads _ _ _ _ _ _ _ Ld E Hh) as K. rewrite E in K. destruct K as (y & Y & _). discriminate Y. }
  assert (Hf := m_free _ _ _ _ _ _ _ _ _ _ _ _ _ _ _ _ Hm (free s) (N.le_refl _)).
  assert (HF := m_free _ _ _ _ _ _ _ _ _ _ _ _ _ _ _ _ Hm).
  destruct (m_client _ _ _ _ _ _ _ _ _ _ _ _ _ _ _ _ Hm) as (Lr & dd & Ecl & El & Hl).
  (* a step the model does not have *)
  assert (Still : forall (s1 : M) m1 fr, memory_as adr rch s1 us k -> keep 0 s s1 -> keep 2 s s1 -> (Base s1 -> rd_r s1 fr m1 (rdr k)) ->
     (pend s1 < pend s \/ pend s1 = pend s /\ fr < f2)%nat -> (cc -> keep 3 s s1 /\ (18 <= fr)%nat) -> after_q L k s (f1 + f2 + f3) s1 us (mi :: m1 :: ms)).
  { intros s1 m1 fr Hm1 K0 K2 Hr Hlt Hk. pose proof (ma_base Hm1) as Hb1.
    eapply none with (o := o) (f1 := f1) (f2 := fr) (f3 := f3); [exact Hc|exact HL|exact Hm1| |exact (Hr Hb1)| |lia|intros X; destruct (Hca X) as (Y1 & Y2 & Y3 & Y4); destruct (Hk X) as [Z1 Z2]; split; [exact (undead_keep _ _ _ _ _ _ _ _ _ _ _ _ Z1 Y1)|split; [exact Z2|split; [exact Y3|exact Y4]]]].
    - eapply io_rkeep with (s := s); [exact Hb1|exact K0|apply keep_keep_calls, K2|intros X; exact X|exact Hio].
    - eapply snds_rkeep with (s := s); [exact Hb1|exact K0|exact K2|exact Hsn]. }
  assert (New : forall v m1 fr, (Base (with_new s v) -> rd_r (with_new s v) fr m1 (rdr k)) -> (fr < f2)%nat -> (18 <= fr)%nat -> after_q L k s (f1 + f2 + f3) (with_new s v) us (mi :: m1 :: ms)).
  { intros v m1 fr Hr Hlt H18. eapply Still; [apply ma_new, Hm|apply keep_new, Hf|apply keep_new, Hf|exact Hr|right; split; [reflexivity|exact Hlt]|intros _; split; [apply keep_new, Hf|exact H18]]. }
  assert (Dead : forall m1 fr, (Base (with_cell s C (v_cl (fid k) Lr true)) -> rd_r (with_cell s C (v_cl (fid k) Lr true)) fr m1 (rdr k)) -> (fr < f2)%nat -> (f2 < 18)%nat ->
     after_q L k s (f1 + f2 + f3) (with_cell s C (v_cl (fid k) Lr true)) us (mi :: m1 :: ms)).
  { intros m1 fr Hr Hlt H18. eapply Still; [|eapply keep_cell; [exact Ecl|discriminate]|eapply keep_cell; [exact Ecl|discriminate]|exact Hr|right; split; [reflexivity|exact Hlt]|intros X; destruct (Hca X) as (_ & Y & _); lia].
    exact (ma_client _ _ _ _ _ _ _ _ _ _ _ _ _ _ _ k k Lr true Hm El Hl eq_refl eq_refl eq_refl eq_refl). }
  (* the reader's own cell a, and the network *)
  assert (Own : forall k' a w v n, cells s a = Some w -> kind w = 1%nat -> tags k' = tags k -> fid k' = fid k -> rpc k' = rpc k -> queue k' = queue k -> callers k' = callers k -> closed k' = closed k ->
     let s1 := mkMem (put_cell (cells s) a v) (free s) (mkNW (w_chans (rest s)) (w_next (rest s)) n (w_gos (rest s))) in
     memory_as adr rch s1 us k' /\ keep 0 s s1 /\ keep 2 s s1 /\ keep 3 s s1).
  { intros k' a w v n Ea Hk E1 E2 E3 E4 E5 E6 s1. assert (KK : forall n, n <> 1%nat -> keep n s s1).
    { intros j Hj b x Hx Eb. cbn. rewrite put_cell_other; [exact Eb|]. intros ->. congruence. }
    split; [|split; [|split]; apply KK; lia]. apply (ma_ext _ _ _ _ _ _ _ _ _ _ _ _ _ _ _ k); try assumption.
    apply ma_frame with s; try (apply KK; lia); try reflexivity; [exact Hm|]. cbn. intros b Hb1. rewrite put_cell_other; [apply HF, Hb1|]. intros ->. rewrite HF in Ea by exact Hb1. discriminate. }
  remember (rdr k) as x eqn:Ex.
  destruct Hrd as [| |Hn|Hn|a Hn|a h Hn Hh|a h b Hn Hh|a h b p Hn Hp|a p Hn Hp| | |].
  - destruct Q as (m1 & E & Q). destruct (lstep_plain _ _ _ _ _ _ _ _ _ St E eq_refl) as (vs & Ea & -> & ->).
    cbn [answer] in Ea. rewrite Ecl in Ea. change (set_path [SF (str "Dead")] (VBool true) (v_cl (fid k) Lr dd)) with (Some (v_cl (fid k) Lr true)) in Ea. inversion Ea; subst vs s'. cbn [event]. clear Ea.
    eapply Dead with (fr := 0%nat); [|lia|lia]. intros Hb'. eapply rd_at; [apply rq_gone2|exact Hb'|exact Q].
  - destruct (lstep_end _ _ _ _ _ _ _ St Q).
  - destruct Q as (m1 & E & Q1 & Q2). destruct (lstep_plain _ _ _ _ _ _ _ _ _ St E eq_refl) as (vs & Ea & -> & ->).
    cbn [answer] in Ea. rewrite Ecl in Ea. change (get_path [SF (str "Dead")] (v_cl (fid k) Lr dd)) with (Some (VBool dd)) in Ea. inversion Ea; subst vs s'. cbn [event]. clear Ea.
    destruct dd.
    + eapply Still with (fr := 16%nat); [exact Hm|apply keep_same; reflexivity|apply keep_same; reflexivity| |right; split; [reflexivity|lia]|intros X; destruct (Hca X) as ((f & L1 & Y) & _); rewrite Ecl in Y; inversion Y]. intros Hb'. eapply rd_at; [apply rq_close|exact Hb'|assumption].
    + eapply Still with (fr := 19%nat); [exact Hm|apply keep_same; reflexivity|apply keep_same; reflexivity| |right; split; [reflexivity|lia]|intros _; split; [apply keep_same; reflexivity|lia]]. intros Hb'. eapply rd_at; [apply rq_make, Hn|exact Hb'|assumption].
  - destruct Q as (m1 & E & Q). destruct (lstep_plain _ _ _ _ _ _ _ _ _ St E eq_refl) as (vs & Ea & -> & ->). cbn in Ea. inversion Ea; subst vs s'. clear Ea.
    eapply New with (fr := 18%nat); [|lia|lia]. intros Hb'. eapply rd_at; [apply rq_read with (a := free s), Hn| |].
    + split; [exact Hb'|]. cbn. apply put_cell_same.
    + eapply ld_stronger; [|apply Q]. intros s1 (H1 & _). exact H1.
  - destruct Q as (m1 & E & Q1 & Q2 & Q3). destruct (lstep_plain _ _ _ _ _ _ _ _ _ St E eq_refl) as (vs & Ea & -> & ->).
    destruct H as (H1 & H2). cbn in Ea. rewrite H2 in Ea. change (Pos.to_nat 7) with 7%nat in Ea.
    destruct (net_read 7 (w_net (rest s))) as [| |b r] eqn:En; inversion Ea; subst vs s'; clear Ea; cbn [event].
    + eapply Still with (fr := 17%nat); [exact Hm|apply keep_same; reflexivity|apply keep_same; reflexivity| |right; split; [reflexivity|lia]|intros X; destruct (proj1 (Hfe X (Ne _ _ _ _ _ E eq_refl (Q3 _ _))) _ _ _ E) as (h' & r' & Y & _); rewrite En in Y; discriminate Y]. intros Hb'. eapply rd_at; [apply rq_dead|exact Hb'|apply Q3].
    + eapply Still with (fr := 17%nat); [exact Hm|apply keep_same; reflexivity|apply keep_same; reflexivity| |right; split; [reflexivity|lia]|intros X; destruct (proj1 (Hfe X (Ne _ _ _ _ _ E eq_refl (Q3 _ _))) _ _ _ E) as (h' & r' & Y & _); rewrite En in Y; discriminate Y]. intros Hb'. eapply rd_at; [apply rq_dead|exact Hb'|apply Q3].
    + destruct (Own k a _ (VArr (overlay [x00; x00; x00; x00; x00; x00; x00] b)) r H2 eq_refl eq_refl eq_refl eq_refl eq_refl eq_refl eq_refl) as (Hm' & K0 & K2 & K3).
      assert (Hle := net_read_most _ _ _ _ En). pose proof (net_read_pending _ _ _ _ En) as Hpe.
      destruct (Nat.eq_dec (List.length b) 7) as [e7|n7].
      * eapply Still with (fr := 32%nat); [exact Hm'|exact K0|exact K2| |left; unfold pend; cbn [rest w_net]; lia|intros _; split; [exact K3|lia]]. intros Hb'.
        replace (Z.of_N (blen b)) with 7%Z by (unfold blen; rewrite e7; reflexivity).
        eapply rd_at; [apply rq_buf with (a := a) (h := b); assumption| |apply Q1, e7]. split; [exact Hb'|]. cbn. rewrite put_cell_same. f_equal. f_equal. unfold overlay. rewrite e7. cbn. apply app_nil_r.
      * eapply Still with (fr := 17%nat); [exact Hm'|exact K0|exact K2| |unfold pend; cbn [rest w_net]; lia|intros X; assert (Hz : (Z.of_N (blen b) < 7)%Z) by (unfold blen; lia); destruct (proj1 (Hfe X (Ne _ _ _ _ _ E eq_refl (Q2 _ Hz))) _ _ _ E) as (h' & r' & Y & Y'); rewrite En in Y; inversion Y; subst; contradiction]. intros Hb'.
        eapply rd_at; [apply rq_dead|exact Hb'|]. apply Q2. unfold blen. lia.
  - destruct Q as (m1 & E & Q). destruct (lstep_plain _ _ _ _ _ _ _ _ _ St E eq_refl) as (vs & Ea & -> & ->).
    destruct H as (H1 & H2). cbn in Ea. rewrite H2 in Ea. change (Pos.to_nat 7) with 7%nat in Ea. rewrite (firstn_all2 h) in Ea by lia. inversion Ea; subst vs s'; clear Ea.
    cbn [event]. eapply New with (fr := 31%nat); [|lia|lia]. intros Hb'. eapply rd_at; [apply rq_copy with (a := a) (h := h) (b := free s); assumption| |].
    + split; [split; [exact Hb'|]|]; cbn; [|apply put_cell_same]. rewrite put_cell_other; [exact H2|]. intros ->. congruence.
    + eapply ld_stronger; [|apply Q]. intros s1 (H3 & _). exact H3.
  - destruct Q as (m1 & (n & E & En) & Q1 & Q2). destruct (lstep_plain _ _ _ _ _ _ _ _ _ St E eq_refl) as (vs & Ea & -> & ->).
    destruct H as (H1 & H2). cbn in Ea. rewrite H2 in Ea. destruct (copy_limit (Z.to_nat n) (w_net (rest s))) as [[c r]|] eqn:Ec; inversion Ea; subst vs s'; clear Ea.
    + destruct (copy_limit_stream _ _ _ _ Ec) as (_ & _ & Hle).
      assert (H7 : (7 <= List.length (h ++ c))%nat) by (rewrite app_length; lia).
      pose proof (cs_read tr k (h ++ c) Hc (eq_sym Ex) H7) as Cs. match type of Cs with cstep _ _ _ ?k1 => set (k' := k1) in * end.
      destruct (Own k' b _ (VBuf (Buf (h ++ c) [])) r H2 eq_refl eq_refl eq_refl eq_refl eq_refl eq_refl) as (Hm' & K0 & K2 & K3); [unfold closed; cbn; rewrite <- Ex; reflexivity|].
      pose proof (ma_base Hm') as Hb'.
      eapply one with (o := o) (f1 := f1) (f2 := 30%nat) (f3 := f3); [exact Cs|reflexivity|reflexivity|exact HL|exact Hm'| | | | |try solve [calmly Hca]].
      * eapply io_rkeep with (s := s); [exact Hb'|exact K0|apply keep_keep_calls, K2| |exact Hio]. unfold closed. cbn. rewrite <- Ex. auto.
      * eapply rd_at; [apply rq_reply with (a := a) (h := h) (b := b); assumption| |apply Q1].
        split; [split; [exact Hb'|]|]; cbn; [|apply put_cell_same]. rewrite put_cell_other; [exact (proj2 H1)|]. intros X. rewrite X in H1. destruct H1 as (_ & H1). congruence.
      * eapply snds_rkeep with (s := s); [exact Hb'|exact K0|exact K2|exact Hsn].
      * right. split; [reflexivity|]. unfold pend. cbn [rest w_net]. lia.
    + eapply Still with (fr := 17%nat); [exact Hm|apply keep_same; reflexivity|apply keep_same; reflexivity| |right; split; [reflexivity|lia]|intros X; destruct (proj2 (Hfe X (Ne _ _ _ _ _ E eq_refl (Q2 _ _))) _ _ _ E Ec)]. intros Hb'. eapply rd_at; [apply rq_dead|exact Hb'|apply Q2].
  - destruct Q as (m1 & E & Q). destruct (lstep_plain _ _ _ _ _ _ _ _ _ St E eq_refl) as (vs & Ea & -> & ->). cbn in Ea. inversion Ea; subst vs s'. clear Ea.
    eapply New with (fr := 29%nat); [|lia|lia]. intros Hb'. eapply rd_at; [apply rq_send with (a := free s) (p := p); assumption| |].
    + split; [exact Hb'|cbn; apply put_cell_same].
    + eapply ld_stronger; [|apply Q]. intros s1 (H3 & _). exact H3.
  - destruct Q as (m1 & E & Q). destruct (lstep_send _ _ _ _ _ _ _ _ _ _ _ _ St E (m_fs _ _ _ _ _ _ _ _ _ _ _ _ _ _ _ _ Hm)) as (_ & _ & X & _). cbn in X. lia.
  - destruct Q as (m1 & E & Q). destruct (lstep_plain _ _ _ _ _ _ _ _ _ St E eq_refl) as (vs & Ea & -> & ->).
    cbn [answer] in Ea. rewrite Ecl in Ea. change (set_path [SF (str "Dead")] (VBool true) (v_cl (fid k) Lr dd)) with (Some (v_cl (fid k) Lr true)) in Ea. inversion Ea; subst vs s'. cbn [event]. clear Ea.
    eapply Dead with (fr := 16%nat); [|lia|lia]. intros Hb'. eapply rd_at; [apply rq_close|exact Hb'|exact Q].
  - destruct Q as (m1 & E & Q). destruct (lstep_plain _ _ _ _ _ _ _ _ _ St E eq_refl) as (vs & Ea & -> & ->).
    pose proof (m_fs _ _ _ _ _ _ _ _ _ _ _ _ _ _ _ _ Hm) as Ef. unfold closed in Ef. rewrite <- Ex in Ef. cbn in Ea. rewrite Ef in Ea. cbn in Ea. inversion Ea; subst vs s'; clear Ea.
    pose proof (cs_eof tr k Hc (eq_sym Ex)) as Cs. match type of Cs with cstep _ _ _ ?k1 => set (k' := k1) in * end.
    assert (Htf : tg <> fs). { intros X1. rewrite <- X1, (m_tags _ _ _ _ _ _ _ _ _ _ _ _ _ _ _ _ Hm) in Ef. discriminate. }
    assert (Hcf : fc <> fs). { intros X1. rewrite <- X1, (m_fc _ _ _ _ _ _ _ _ _ _ _ _ _ _ _ _ Hm) in Ef. discriminate. }
    assert (Hm' : memory_as adr rch (set_chan s fs (mkCh 0 [] true)) us k').
    { apply (ma_chan _ _ _ _ _ _ _ _ _ _ _ _ _ _ _ _ _ _ _ _ Hm Ef); try reflexivity; auto.
      - rewrite put_chan_other by auto. apply (m_tags _ _ _ _ _ _ _ _ _ _ _ _ _ _ _ _ Hm).
      - rewrite put_chan_other by auto. apply (m_fc _ _ _ _ _ _ _ _ _ _ _ _ _ _ _ _ Hm).
      - rewrite put_chan_same. reflexivity. }
    pose proof (ma_base Hm') as Hb'.
    eapply one with (o := o) (f1 := f1) (f2 := 0%nat) (f3 := f3); [exact Cs|reflexivity|reflexivity|exact HL|exact Hm'| | | |apply lt3_rank; lia|intros X; destruct (Hca X) as (_ & Y & _); lia].
    + eapply io_rkeep with (s := s); [exact Hb'|apply keep_same; reflexivity|apply keep_keep_calls, keep_same; reflexivity| |exact Hio]. intros _. reflexivity.
    + eapply rd_at; [apply rq_end|exact Hb'|exact Q].
    + eapply snds_rkeep with (s := s); [exact Hb'|apply keep_same; reflexivity|apply keep_same; reflexivity|exact Hsn].
  - destruct (lstep_end _ _ _ _ _ _ _ St Q).
Qed.
End Sim.
