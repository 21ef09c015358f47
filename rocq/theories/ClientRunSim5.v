(** Every execution of the text of client.go is one of the model. *)
From Verif Require Import Base GoBuf CodecPrim Types Codec Rpc GoSyntax Ufs GoRun GoFmt GoProg GoWp Server ServerRun ServerRunLemmas
  Client ClientLemmas ClientLemmas2 ClientLemmas6 ClientRun ClientRunLemmas ClientRunText ClientRunSim ClientRunSim2 ClientRunSim3 ClientRunSim4.
From Coq Require String Ascii.
Local Opaque NumTags all_tags.

Section Sim.
Context (RN : N) (opt : oserr + (value * value * value * N)) (C tg fc fs wn rn tn msz : N) (tr hn : bool).
Notation M := (memory nworld).
Notation P := protocol_program.
Notation leads := (leads RN opt).
Notation lstep := (lstep RN opt).
Notation ldie := (ldie RN opt).
Notation LIB := (lib RN opt).
Notation v_cl := (v_cl tg fc fs wn rn tn msz tr hn).
Notation Base := (base RN C tg fc fs wn rn tn msz tr hn).
Notation Boxed := (boxed RN C tg fc fs wn rn tn msz tr hn).
Notation HasReply := (has_reply RN C tg fc fs wn rn tn msz tr hn).
Notation HasBoth := (has_both RN C tg fc fs wn rn tn msz tr hn).
Notation HasCall := (has_call RN C tg fc fs wn rn tn msz tr hn).
Notation HasArr := (has_arr RN C tg fc fs wn rn tn msz tr hn).
Notation HasBuf := (has_buf RN C tg fc fs wn rn tn msz tr hn).
Notation io_ph := (io_ph RN opt C tg fc fs wn rn tn msz tr hn).
Notation snd_ph := (snd_ph RN opt C tg fc fs wn rn tn msz tr hn).
Notation rd_ph := (rd_ph RN opt C tg fc fs wn rn tn msz tr hn).
Notation snds := (snds RN opt C tg fc fs wn rn tn msz tr hn).
Notation memory_as := (memory_as RN C tg fc fs wn rn tn msz tr hn).
Notation threads_as := (threads_as RN opt C tg fc fs wn rn tn msz tr hn).
Notation good := (good RN opt C tg fc fs wn rn tn msz tr hn).
Notation after := (after RN opt C tg fc fs wn rn tn msz tr hn).
Notation related := (related RN opt C tg fc fs wn rn tn msz tr hn).
Notation tstep := (tstep RN opt C).

(** * A new call *)
Lemma io_adr adr rch adr' rch' s k m o : Inv k -> (forall c, callers k c <> CIdle -> adr' c = adr c /\ rch' c = rch c) ->
  io_ph adr rch s (closed k) m o (rcv k) -> io_ph adr' rch' s (closed k) m o (rcv k).
Proof.
  intros HI He H. remember (rcv k) as v eqn:Ev. remember (closed k) as cl eqn:Ecl.
  destruct H as [H|B H|B H|B Hc' H|B a b H|B a b H|B a b t c H|B t H]; try (econstructor; eassumption).
  symmetry in Ev. destruct (i_deliver_t k HI _ _ _ Ev) as (_ & q & Hq). destruct (He c) as (E1 & E2); [destruct Hq as [Hq|(r & Hq)]; rewrite Hq; discriminate|].
  apply io_del with a. rewrite E1, E2. exact H.
Qed.
Lemma snd_adr adr rch adr' rch' s k m B : Inv k -> (forall c t q, snd_ k = SSlotted c t q -> callers k c <> CIdle) ->
  (forall c, callers k c <> CIdle -> adr' c = adr c /\ rch' c = rch c) -> snd_ph adr rch s m B (snd_ k) -> snd_ph adr' rch' s m B (snd_ k).
Proof.
  intros HI Hs He H. assert (Hx : forall c, (0 < scall c (snd_ k))%nat -> adr' c = adr c /\ rch' c = rch c).
  { intros c Hc. apply He. destruct (sending k c HI Hc) as ((q & E) & _). rewrite E. discriminate. }
  remember (snd_ k) as x eqn:Ex.
  destruct H as [H|c q Hq H|c t q Hq H|c t q Hq H|c t q H|c t q H|c t q H|c t q H]; try (econstructor; eassumption);
    (destruct (Hx c) as (E1 & E2); [cbn; rewrite Nat.eqb_refl; lia|]) || (destruct (He c) as (E1 & E2); [eapply Hs; reflexivity|]).
  - apply sp_call; [exact Hq|]. rewrite E1, E2. exact H.
  - apply sp_5; [exact Hq|]. rewrite E1, E2. exact H.
  - apply sp_6; [exact Hq|]. rewrite E1, E2. exact H.
  - apply sp_slot. rewrite E1, E2. exact H.
  - apply sp_write. rewrite E1, E2. exact H.
Qed.
Definition started (s : M) (q : bytes) : M :=
  mkMem (put_cell (cells s) (free s) (v_call q (w_next (rest s)))) (free s + 1)
    (mkNW (put_chan (w_chans (rest s)) (w_next (rest s)) (mkCh 0 [] false)) (w_next (rest s) + 1) (w_net (rest s)) (w_gos (rest s))).
Lemma ma_start adr rch s us k k' c q : memory_as adr rch s us k -> Inv k -> callers k c = CIdle -> (7 <= List.length q)%nat ->
  tags k' = tags k -> fid k' = fid k -> rpc k' = rpc k -> queue k' = queue k -> callers k' = upd (callers k) c (CSend q) -> closed k' = closed k ->
  memory_as (upd adr c (free s)) (upd rch c (w_next (rest s))) (started s q) (upd us c (USend q (free s) (w_next (rest s)))) k'.
Proof.
  intros [] HI Hi Hl E1 E2 E3 E4 E5 E6.
  assert (Old : forall c', callers k c' <> CIdle -> c' <> c) by (intros c' H ->; contradiction).
  assert (Qd : forall x, In x (queue k) -> callers k (fst x) <> CIdle). { intros [c' q'] Hx. destruct (queued k c' q' HI Hx) as (q1 & X). cbn. rewrite X. discriminate. }
  assert (Cold : forall a v, cells s a = Some v -> a <> free s). { intros a v E ->. rewrite m_free in E by lia. discriminate. }
  assert (Chold : forall n v, w_chans (rest s) n = Some v -> n <> w_next (rest s)). { intros n v E ->. rewrite m_next in E by lia. discriminate. }
  constructor; cbn [cells rest free started w_chans w_next]; rewrite ?E1, ?E2, ?E3, ?E4, ?E5, ?E6; try assumption.
  - rewrite put_cell_other; [assumption|eauto].
  - destruct m_client as (L & dd & E & El & Hs). exists L, dd. rewrite put_cell_other by eauto. split; [exact E|]. split; [exact El|].
    intros t H1 H2. rewrite (Hs t H1 H2). f_equal. destruct (rpc k t) as [c'|] eqn:Er; [|reflexivity]. cbn. unfold p_call.
    destruct (i_slot k HI c' _ Er) as (_ & q' & Hq). rewrite upd_other; [reflexivity|]. apply Old. destruct Hq as [Hq|(r & Hq)]; rewrite Hq; discriminate.
  - rewrite put_chan_other; [assumption|eauto].
  - rewrite put_chan_other by eauto. rewrite m_fc. do 2 f_equal. apply map_ext_in. intros x Hx. unfold p_call. rewrite upd_other by (apply Old, Qd, Hx). reflexivity.
  - rewrite put_chan_other; [assumption|eauto].
  - intros c'. specialize (m_user c'). destruct (Nat.eq_dec c' c) as [->|Hn]; [rewrite !upd_same; reflexivity|rewrite !upd_other by exact Hn; exact m_user].
  - intros c' Hc'. destruct (Nat.eq_dec c' c) as [->|Hn].
    + exists q. rewrite !upd_same, put_cell_same, put_chan_same. repeat split; auto. intros X. eapply (Chold fs); [exact m_fs|auto].
    + rewrite upd_other in Hc' by exact Hn. rewrite !upd_other by exact Hn. destruct (m_call c' Hc') as (q' & E & Hl' & Ec & Hf). exists q'.
      rewrite put_cell_other by eauto. rewrite put_chan_other by eauto. auto.
  - intros c' q' Hc'. destruct (Nat.eq_dec c' c) as [->|Hn].
    + rewrite !upd_same in *. rewrite put_cell_same. destruct Hc' as [X|X]; [inversion X; reflexivity|]. destruct (Qd _ X Hi).
    + rewrite !upd_other in * by exact Hn. specialize (m_send c' q' Hc'). rewrite put_cell_other by eauto. exact m_send.
  - intros c1 c2 H1 H2 H3. destruct (Nat.eq_dec c1 c) as [->|Hn1], (Nat.eq_dec c2 c) as [->|Hn2]; [reflexivity| | |].
    + exfalso. rewrite upd_other in H2 by exact Hn2. destruct (m_call c2 H2) as (q' & E & _ & Ec & _). rewrite !upd_same, !upd_other in H3 by exact Hn2. destruct H3 as [H3|H3]; [eapply Cold|eapply Chold]; eauto.
    + exfalso. rewrite upd_other in H1 by exact Hn1. destruct (m_call c1 H1) as (q' & E & _ & Ec & _). rewrite !upd_same, !upd_other in H3 by exact Hn1. destruct H3 as [H3|H3]; [eapply Cold|eapply Chold]; eauto.
    + rewrite !upd_other in * by assumption. auto.
  - intros a Ha. rewrite put_cell_other by lia. apply m_free. lia.
  - intros n Hn. rewrite put_chan_other by lia. apply m_next. lia.
Qed.
Lemma ma_enqueue adr rch s us k k' c q : memory_as adr rch s us k -> callers k c = CSend q ->
  tags k' = tags k -> fid k' = fid k -> rpc k' = rpc k -> queue k' = queue k ++ [(c, q)] -> callers k' = upd (callers k) c (CWait q) -> closed k' = closed k ->
  memory_as adr rch (set_chan s fc (mkCh (N.of_nat NumTags) (map (fun x => p_call adr (fst x)) (queue k) ++ [p_call adr c]) false)) (upd us c (UWait q (rch c))) k'.
Proof.
  intros [] Hi E1 E2 E3 E4 E5 E6.
  assert (Nfs : fs <> fc) by (intros X; rewrite X, m_fc in m_fs; discriminate m_fs).
  constructor; cbn [cells rest free set_chan with_rest w_chans w_next]; rewrite ?E1, ?E2, ?E3, ?E4, ?E5, ?E6; try assumption.
  - rewrite put_chan_other by exact m_distinct. exact m_tags.
  - rewrite put_chan_same, map_app. reflexivity.
  - rewrite put_chan_other by exact Nfs. exact m_fs.
  - intros c'. specialize (m_user c'). destruct (Nat.eq_dec c' c) as [->|Hn]; [rewrite !upd_same; reflexivity|rewrite !upd_other by exact Hn; exact m_user].
  - intros c' Hc'. assert (Hx : callers k c' <> CIdle) by (destruct (Nat.eq_dec c' c) as [->|Hn]; [congruence|rewrite upd_other in Hc' by exact Hn; exact Hc']).
    destruct (m_call c' Hx) as (q' & E & Hl & Ec & Hf). exists q'. rewrite put_chan_other; [auto|]. intros X. rewrite X, m_fc in Ec. discriminate Ec.
  - intros c' q' [H|H].
    + destruct (Nat.eq_dec c' c) as [->|Hn]; [rewrite upd_same in H; discriminate|]. rewrite upd_other in H by exact Hn. apply m_send. auto.
    + apply in_app_iff in H. destruct H as [H|[H|[]]]; [apply m_send; auto|]. inversion H; subst. apply m_send. auto.
  - intros c1 c2 H1 H2. apply m_inj.
    + destruct (Nat.eq_dec c1 c) as [->|Hn]; [congruence|rewrite upd_other in H1 by exact Hn; exact H1].
    + destruct (Nat.eq_dec c2 c) as [->|Hn]; [congruence|rewrite upd_other in H2 by exact Hn; exact H2].
  - intros n Hn. rewrite put_chan_other; [auto|]. intros ->. rewrite m_next in m_fc by exact Hn. discriminate m_fc.
Qed.
(** Only a caller changes. *)
Lemma ma_done adr rch s us k k' c q r : memory_as adr rch s us k -> callers k c = CWait q ->
  tags k' = tags k -> fid k' = fid k -> rpc k' = rpc k -> queue k' = queue k -> callers k' = upd (callers k) c (CDone q r) -> closed k' = closed k ->
  memory_as adr rch s (upd us c (UDone q r)) k'.
Proof.
  intros [] Hi E1 E2 E3 E4 E5 E6.
  assert (Hb : forall c', upd (callers k) c (CDone q r) c' <> CIdle -> callers k c' <> CIdle).
  { intros c' H. destruct (Nat.eq_dec c' c) as [->|Hn]; [congruence|rewrite upd_other in H by exact Hn; exact H]. }
  constructor; rewrite ?E1, ?E2, ?E3, ?E4, ?E5, ?E6; auto.
  - intros c'. specialize (m_user c'). destruct (Nat.eq_dec c' c) as [->|Hn]; [rewrite !upd_same; reflexivity|rewrite !upd_other by exact Hn; exact m_user].
  - intros c' q' [H|H]; [|auto]. destruct (Nat.eq_dec c' c) as [->|Hn]; [rewrite upd_same in H; discriminate|]. rewrite upd_other in H by exact Hn. auto.
Qed.

(** * Any step *)
Lemma three adr rch s mi mn ms o x i m : snds adr rch s ms o x -> nth_error (mi :: mn :: ms) i = Some m ->
  (i = 0%nat /\ m = mi) \/ (i = 1%nat /\ m = mn) \/ (i = 2%nat /\ exists B, o = Some B /\ ms = [m] /\ snd_ph adr rch s m B x).
Proof.
  intros H E. destruct i as [|[|i]]; cbn in E; [inversion E; auto|inversion E; auto|]. right; right. destruct o as [B|]; cbn in H.
  - destruct H as (m0 & -> & H). destruct i as [|i]; cbn in E; [|destruct i; discriminate]. inversion E; subst. split; [reflexivity|]. exists B. auto.
  - destruct H as [-> _]. destruct i; discriminate.
Qed.
Lemma numtags_pos' : N.of_nat NumTags <> 0. Proof. rewrite numtags_N. discriminate. Qed.
Lemma after_related evs g k ls l ths s us : related evs g k ls -> crashed k = false ->
  (forall up, packets evs = reads ls ++ up -> good (g_mem g) (g_users g) (g_threads g) k up -> after k l s us ths up) ->
  exists ls' k', csteps tr k ls' k' /\ seen ls' = seen1 l /\ related evs (mkG ths s us false) k' (ls ++ ls').
Proof.
  intros [Hmo Hd (up & Hr & Hg)] Hc H. destruct (H up Hr (Hg Hc)) as (ls' & k' & up' & Hst & Hse & Hu & Hc' & Hg').
  exists ls', k'. split; [exact Hst|]. split; [exact Hse|]. constructor.
  - eapply csteps_app; eassumption.
  - symmetry. exact Hc'.
  - exists up'. split; [rewrite reads_app, <- app_assoc, <- Hu; exact Hr|]. intros _. exact Hg'.
Qed.
Lemma dead_related evs g k ls l ls' k' g' : related evs g k ls -> csteps tr k ls' k' -> seen ls' = seen1 l -> crashed k' = true -> g_dead g' = true -> reads ls' = [] ->
  exists ls' k', csteps tr k ls' k' /\ seen ls' = seen1 l /\ related evs g' k' (ls ++ ls').
Proof.
  intros [Hmo Hd (up & Hr & Hg)] Hst Hse Hc Hdg Hre. exists ls', k'. split; [exact Hst|]. split; [exact Hse|]. constructor.
  - eapply csteps_app; eassumption.
  - congruence.
  - exists up. split; [rewrite reads_app, Hre, app_nil_r; exact Hr|]. congruence.
Qed.
Lemma sim_step evs g k ls l g' : related evs g k ls -> tstep g l g' ->
  exists ls' k', csteps tr k ls' k' /\ seen ls' = seen1 l /\ related evs g' k' (ls ++ ls').
Proof.
  intros R St. pose proof (inv_steps _ _ _ _ (r_model _ _ _ _ _ _ _ _ _ _ _ _ _ _ _ _ R)) as HI. pose proof (r_dead _ _ _ _ _ _ _ _ _ _ _ _ _ _ _ _ R) as Hd.
  pose proof (slotted _ _ _ _ (r_model _ _ _ _ _ _ _ _ _ _ _ _ _ _ _ _ R)) as Hsl.
  destruct St as [i m l m' s' D Ei St|i m l D Ei St|i m f vs m' D Ei Eg|i j m1 m2 kk kk' n v m1' m2' c D Hij E1 E2 Es Er Ec Ecap Ecl|c q D Eu Hq s w|c q a n kk f b D Eu Ef Ech Hroom Ecl|i m kk n r m' c q b D Ei Es Ech Ecap Ecl Eu|kk n b t l D Ef Ech Eb|n s' D Ea];
    assert (Hc : crashed k = false) by congruence.
  - (* one goroutine *) eapply after_related; [exact R|exact Hc|]. intros up Hr (adr & rch & mi & mn & ms & o & Hm & Ht). pose proof Ht as Ht0. destruct Ht as [Eth Hio Hrd Hsn]. rewrite Eth in *.
    destruct (three _ _ _ _ _ _ _ _ _ _ Hsn Ei) as [(-> & ->)|[(-> & ->)|(-> & B & -> & -> & Hp)]]; cbn [put_nth].
    + eapply sim_io; eassumption.
    + eapply sim_rd; eassumption.
    + eapply sim_snd; eassumption.
  - (* the end *) destruct R as [Hmo Hd' (up & Hr & Hg)] eqn:ER. destruct (Hg Hc) as (adr & rch & mi & mn & ms & o & Hm & Ht). pose proof Ht as Ht0. destruct Ht as [Eth Hio Hrd Hsn]. rewrite Eth in *.
    destruct (three _ _ _ _ _ _ _ _ _ _ Hsn Ei) as [(-> & ->)|[(-> & ->)|(-> & B & -> & -> & Hp)]].
    + destruct (die_io _ _ _ _ _ _ _ _ _ _ _ _ _ _ _ _ _ _ _ _ _ _ _ HI Hc Hm Ht0 St) as (-> & ls' & X1 & X2 & X3).
      eapply dead_related; [exact R|exact X1|exact X2| |reflexivity|exact X3]. reflexivity.
    + destruct (die_rd _ _ _ _ _ _ _ _ _ _ _ _ _ _ _ _ _ _ _ _ _ _ _ Hc Hm Ht0 St).
    + destruct (die_snd _ _ _ _ _ _ _ _ _ _ _ _ _ _ _ _ _ _ _ _ Hc Hm Hp St) as (-> & X).
      eapply dead_related with (ls' := [LFatal]); [exact R|apply csteps_one, X|reflexivity|reflexivity|reflexivity|reflexivity].
  - (* go *) eapply after_related; [exact R|exact Hc|]. intros up Hr (adr & rch & mi & mn & ms & o & Hm & [Eth Hio Hrd Hsn]). rewrite Eth in *.
    destruct (three _ _ _ _ _ _ _ _ _ _ Hsn Ei) as [(-> & ->)|[(-> & ->)|(-> & B & -> & -> & Hp)]]; cbn [put_nth app].
    + destruct (io_go _ _ _ _ _ _ _ _ _ _ _ _ _ _ _ _ _ _ _ _ _ _ Hio Eg) as (-> & Ev & B & -> & -> & Hbx & HQ). cbn in Hsn. destruct Hsn as [-> Esn].
      apply after_none; [exact Hc|]. eexists adr, rch, _, mn, _, (Some B). split; [exact Hm|]. constructor; [reflexivity| |exact Hrd|].
      * rewrite Ev. apply io_wait. split; [exact Hbx|]. apply HQ, io_loop_leads.
      * eexists. split; [reflexivity|]. rewrite Esn. apply sp_idle. split; [exact Hbx|]. apply snd_start_leads, snd_loop_leads.
    + destruct (rd_requests _ _ _ _ _ _ _ _ _ _ _ _ _ _ _ _ _ _ Hrd Eg eq_refl) as (a & p & X & _). discriminate.
    + destruct (snd_requests _ _ _ _ _ _ _ _ _ _ _ _ _ _ _ _ _ _ _ _ Hp Eg eq_refl) as [X|X]; discriminate.
  - (* readNetPackets and IO *) eapply after_related; [exact R|exact Hc|]. intros up Hr (adr & rch & mi & mn & ms & o & Hm & [Eth Hio Hrd Hsn]). rewrite Eth in *.
    pose proof (m_tags _ _ _ _ _ _ _ _ _ _ _ _ _ _ _ _ Hm) as Mt. pose proof (m_fc _ _ _ _ _ _ _ _ _ _ _ _ _ _ _ _ Hm) as Mf.
    assert (Ntg : n <> tg). { intros ->. rewrite Mt in Ec. inversion Ec as [X]. rewrite <- X in Ecap. exact (numtags_pos' Ecap). }
    assert (Nfc : n <> fc). { intros ->. rewrite Mf in Ec. inversion Ec as [X]. rewrite <- X in Ecap. exact (numtags_pos' Ecap). }
    destruct (three _ _ _ _ _ _ _ _ _ _ Hsn E2) as [(-> & ->)|[(-> & ->)|(-> & B & -> & -> & Hp)]].
    2: { destruct (rd_requests _ _ _ _ _ _ _ _ _ _ _ _ _ _ _ _ _ _ Hrd Er eq_refl) as (a & p & X & _). discriminate. }
    2: { destruct (snd_requests _ _ _ _ _ _ _ _ _ _ _ _ _ _ _ _ _ _ _ _ Hp Er eq_refl) as [X|X]; inversion X; contradiction. }
    destruct (three _ _ _ _ _ _ _ _ _ _ Hsn E1) as [(-> & ->)|[(-> & ->)|(-> & B & -> & -> & Hp)]].
    + contradiction.
    + destruct (rd_requests _ _ _ _ _ _ _ _ _ _ _ _ _ _ _ _ _ _ Hrd Es eq_refl) as (a & p & X & Ex & Eh & Eup & Hp & Ecell & Hb & HQ). inversion X; subst kk n v. clear X.
      destruct (io_receives _ _ _ _ _ _ _ _ _ _ _ _ _ _ _ _ _ _ _ _ _ _ Hio Er) as (B & -> & Ev & _ & Hbx & HQ2). cbn [put_nth].
      eapply after_one with (l' := LTau); [apply (cs_pass tr k p); auto|reflexivity|reflexivity|reflexivity|].
      exists adr, rch, (resume m2' [VPtr (str "RPCReply") a []]), (resume m1' []), ms, (Some B). split.
      * apply (ma_ext _ _ _ _ _ _ _ _ _ _ _ _ _ _ _ _ _ Hm); try reflexivity. unfold closed. cbn [rdr]. rewrite Ex. reflexivity.
      * constructor; cbn [rcv rdr snd_]; [reflexivity| | |exact Hsn].
        -- apply io_have with a. split; [|apply HQ2, Hp]. split; assumption.
        -- apply rp_load; [exact Eh|exact Eup|]. split; [exact Hb|]. apply HQ, net_loop_leads, Eh.
    + destruct (snd_requests _ _ _ _ _ _ _ _ _ _ _ _ _ _ _ _ _ _ _ _ Hp Es eq_refl) as [X|X]; discriminate.
  - (* a new call *) eapply after_related; [exact R|exact Hc|]. intros up Hr (adr & rch & mi & mn & ms & o & Hm & [Eth Hio Hrd Hsn]). rewrite Eth in *.
    pose proof (m_user _ _ _ _ _ _ _ _ _ _ _ _ _ _ _ _ Hm c) as Mu. rewrite Eu in Mu.
    assert (Hi : callers k c = CIdle) by (destruct (callers k c); cbn in Mu; try discriminate; reflexivity).
    eapply after_one; [apply (cs_start tr k c q); auto|reflexivity|reflexivity|reflexivity|].
    match goal with |- good _ _ _ ?k1 _ => set (k' := k1) end. change (good (started s q) (upd (g_users g) c (USend q (free s) (w_next w))) (mi :: mn :: ms) k' up).
    assert (Hm' : memory_as (upd adr c (free s)) (upd rch c (w_next w)) (started s q) (upd (g_users g) c (USend q (free s) (w_next w))) k') by (apply (ma_start _ _ _ _ k); auto).
    pose proof (ma_base _ _ _ _ _ _ _ _ _ _ _ _ _ _ _ _ Hm') as Hb'.
    assert (Kp : forall kd, keep kd s (started s q)).
    { intros kd. apply (keep_new kd s (v_call q (w_next w))). apply (m_free _ _ _ _ _ _ _ _ _ _ _ _ _ _ _ _ Hm). reflexivity. }
    assert (Old : forall c', callers k c' <> CIdle -> upd adr c (free s) c' = adr c' /\ upd rch c (w_next w) c' = rch c').
    { intros c' Hc'. assert (c' <> c) by (intros ->; contradiction). rewrite !upd_other by assumption. auto. }
    eexists _, _, mi, mn, ms, o. split; [exact Hm'|]. constructor; [reflexivity|..].
    + apply io_keep with (s := s) (cl := closed k); [exact Hb'|apply Kp|apply keep_keep_calls, Kp|intros X; exact X|]. change (rcv k') with (rcv k). apply (io_adr adr rch); auto.
    + apply rd_keep with (s := s); [exact Hb'|apply Kp|apply Kp|reflexivity|exact Hrd].
    + apply snds_keep with (s := s); [exact Hb'|apply Kp|apply Kp|]. change (snd_ k') with (snd_ k). destruct o as [B|]; cbn in Hsn |- *; [|exact Hsn].
      destruct Hsn as (m & -> & Hsn). exists m. split; [reflexivity|]. apply (snd_adr adr rch); auto.
  - (* FromClient *) eapply after_related; [exact R|exact Hc|]. intros up Hr (adr & rch & mi & mn & ms & o & Hm & [Eth Hio Hrd Hsn]). rewrite Eth in *.
    destruct (m_client _ _ _ _ _ _ _ _ _ _ _ _ _ _ _ _ Hm) as (Lr & dd & Ecl' & El & Hl). unfold field in Ef. rewrite Ecl' in Ef. cbn in Ef. inversion Ef; subst kk f. clear Ef.
    pose proof (m_fc _ _ _ _ _ _ _ _ _ _ _ _ _ _ _ _ Hm) as Mf. rewrite Mf in Ech. inversion Ech; subst b. clear Ech. cbn [ch_buf ch_cap] in *.
    pose proof (m_user _ _ _ _ _ _ _ _ _ _ _ _ _ _ _ _ Hm c) as Mu. rewrite Eu in Mu.
    assert (Hi : callers k c = CSend q /\ a = adr c /\ n = rch c) by (destruct (callers k c); cbn in Mu; inversion Mu; auto). destruct Hi as (Hi & -> & ->).
    assert (Hlen : (List.length (queue k) < NumTags)%nat) by (unfold blen in Hroom; rewrite map_length in Hroom; lia).
    eapply after_one with (l' := LTau); [apply (cs_enqueue tr k c q); auto|reflexivity|reflexivity|reflexivity|].
    match goal with |- good ?s1 ?u1 _ ?k1 _ => assert (Hm' : memory_as adr rch s1 u1 k1) by (apply (ma_enqueue _ _ _ _ k); auto) end.
    pose proof (ma_base _ _ _ _ _ _ _ _ _ _ _ _ _ _ _ _ Hm') as Hb'.
    exists adr, rch, mi, mn, ms, o. split; [exact Hm'|]. constructor; [reflexivity|..]; cbn [rcv rdr snd_].
    + apply io_keep with (s := g_mem g) (cl := closed k); [exact Hb'|apply keep_same; reflexivity|apply keep_keep_calls, keep_same; reflexivity|intros X; exact X|exact Hio].
    + apply rd_keep with (s := g_mem g); [exact Hb'|apply keep_same; reflexivity|apply keep_same; reflexivity|reflexivity|exact Hrd].
    + apply snds_keep with (s := g_mem g); [exact Hb'|apply keep_same; reflexivity|apply keep_same; reflexivity|exact Hsn].
  - (* a reply *) eapply after_related; [exact R|exact Hc|]. intros up Hr (adr & rch & mi & mn & ms & o & Hm & [Eth Hio Hrd Hsn]). rewrite Eth in *.
    destruct (three _ _ _ _ _ _ _ _ _ _ Hsn Ei) as [(-> & ->)|[(-> & ->)|(-> & B & -> & -> & Hp)]].
    2: { destruct (rd_requests _ _ _ _ _ _ _ _ _ _ _ _ _ _ _ _ _ _ Hrd Es eq_refl) as (a & p & X & _). discriminate. }
    2: { destruct (snd_requests _ _ _ _ _ _ _ _ _ _ _ _ _ _ _ _ _ _ _ _ Hp Es eq_refl) as [X|X]; discriminate. }
    destruct (io_sends _ _ _ _ _ _ _ _ _ _ _ _ _ _ _ _ _ _ _ _ _ _ _ Hio Es) as [(B & a & b' & t & c' & -> & Ev & -> & X & Hbo & HQ)|(t & _ & _ & X)]; [|discriminate].
    inversion X; subst b'. clear X. pose proof (m_user _ _ _ _ _ _ _ _ _ _ _ _ _ _ _ _ Hm c) as Mu. rewrite Eu in Mu.
    assert (Hi : callers k c = CWait q /\ rch c' = rch c) by (destruct (callers k c); cbn in Mu; inversion Mu; auto). destruct Hi as (Hi & Erc).
    destruct (i_deliver_t k HI _ _ _ Ev) as (_ & q' & Hq').
    assert (c' = c). { apply (m_inj _ _ _ _ _ _ _ _ _ _ _ _ _ _ _ _ Hm); [destruct Hq' as [Hq'|(r' & Hq')]; rewrite Hq'; discriminate|rewrite Hi; discriminate|auto]. }
    subst c'. cbn [put_nth].
    eapply after_one; [apply (cs_deliver tr k r t c q); auto|reflexivity|reflexivity|reflexivity|].
    eexists adr, rch, _, mn, ms, (Some B). split; [apply (ma_done _ _ _ _ k _ c q r Hm Hi); reflexivity|]. constructor; [reflexivity|..]; cbn [rcv rdr snd_].
    + apply io_ret. split; [exact (proj1 (proj1 Hbo))|exact HQ].
    + exact Hrd.
    + exact Hsn.
  - (* GetTag *) eapply after_related; [exact R|exact Hc|]. intros up Hr (adr & rch & mi & mn & ms & o & Hm & [Eth Hio Hrd Hsn]). rewrite Eth in *.
    destruct (m_client _ _ _ _ _ _ _ _ _ _ _ _ _ _ _ _ Hm) as (Lr & dd & Ecl' & El & Hl). unfold field in Ef. rewrite Ecl' in Ef. cbn in Ef. inversion Ef; subst kk n. clear Ef.
    pose proof (m_tags _ _ _ _ _ _ _ _ _ _ _ _ _ _ _ _ Hm) as Mt. pose proof (m_fs _ _ _ _ _ _ _ _ _ _ _ _ _ _ _ _ Hm) as Ms. pose proof Mt as Mt'. rewrite Mt in Ech. inversion Ech; subst b. clear Ech. cbn [ch_buf ch_cap ch_closed] in *.
    destruct (tags k) as [|t0 ts] eqn:Et; [discriminate|]. cbn in Eb. inversion Eb; subst t0 l. clear Eb.
    eapply after_one; [apply (cs_gettag tr k t ts); auto|reflexivity|reflexivity|reflexivity|].
    assert (Nfs : fs <> tg) by (intros X; rewrite X, Mt in Ms; discriminate Ms).
    match goal with |- good ?s1 ?u1 _ ?k1 _ => assert (Hm' : memory_as adr rch s1 u1 k1) end.
    { apply (ma_chan _ _ _ _ _ _ _ _ _ _ _ _ _ _ _ _ _ _ _ _ Hm Mt'); try reflexivity; auto.
      - apply put_chan_same.
      - rewrite put_chan_other by (apply not_eq_sym, (m_distinct _ _ _ _ _ _ _ _ _ _ _ _ _ _ _ _ Hm)). apply (m_fc _ _ _ _ _ _ _ _ _ _ _ _ _ _ _ _ Hm).
      - rewrite put_chan_other by exact Nfs. exact Ms. }
    pose proof (ma_base _ _ _ _ _ _ _ _ _ _ _ _ _ _ _ _ Hm') as Hb'.
    exists adr, rch, mi, mn, ms, o. split; [exact Hm'|]. constructor; [reflexivity|..]; cbn [rcv rdr snd_].
    + apply io_keep with (s := g_mem g) (cl := closed k); [exact Hb'|apply keep_same; reflexivity|apply keep_keep_calls, keep_same; reflexivity|intros X; exact X|exact Hio].
    + apply rd_keep with (s := g_mem g); [exact Hb'|apply keep_same; reflexivity|apply keep_same; reflexivity|reflexivity|exact Hrd].
    + apply snds_keep with (s := g_mem g); [exact Hb'|apply keep_same; reflexivity|apply keep_same; reflexivity|exact Hsn].
  - (* GetFID *) eapply after_related; [exact R|exact Hc|]. intros up Hr (adr & rch & mi & mn & ms & o & Hm & [Eth Hio Hrd Hsn]). rewrite Eth in *.
    destruct (m_client _ _ _ _ _ _ _ _ _ _ _ _ _ _ _ _ Hm) as (Lr & dd & Ecl' & El & Hl). cbn in Ea. rewrite Ecl' in Ea. cbn in Ea. inversion Ea as [[X1 X2]]. clear Ea.
    eapply after_one; [apply (cs_getfid tr k); auto| |reflexivity|reflexivity|]; [reflexivity|].
    match goal with |- good _ _ _ ?k1 _ => assert (Hm' := ma_client _ _ _ _ _ _ _ _ _ _ _ _ _ _ _ k k1 Lr dd Hm El Hl eq_refl eq_refl eq_refl eq_refl) end.
    pose proof (ma_base _ _ _ _ _ _ _ _ _ _ _ _ _ _ _ _ Hm') as Hb'.
    assert (Kp : forall kd, kd <> 3%nat -> keep kd (g_mem g) (with_cell (g_mem g) C (v_cl ((fid k + 1) mod 18446744073709551616) Lr dd))) by (intros kd Hk; eapply keep_cell; [exact Ecl'|]; cbn; auto).
    exists adr, rch, mi, mn, ms, o. split; [exact Hm'|]. constructor; [reflexivity|..]; cbn [rcv rdr snd_].
    + apply io_keep with (s := g_mem g) (cl := closed k); [exact Hb'|apply Kp; lia|apply keep_keep_calls, Kp; lia|intros X; exact X|exact Hio].
    + apply rd_keep with (s := g_mem g); [exact Hb'|apply Kp; lia|apply Kp; lia|reflexivity|exact Hrd].
    + apply snds_keep with (s := g_mem g); [exact Hb'|apply Kp; lia|apply Kp; lia|exact Hsn].
Qed.
End Sim.
