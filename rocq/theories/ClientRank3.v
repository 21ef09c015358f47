(** Every step of the client, except a new call, makes the numbers of ClientRank.v smaller or takes one of its goroutines nearer to its next place. *)
From Verif Require Import Base GoBuf CodecPrim Types Codec Rpc GoSyntax Ufs GoRun GoFmt GoProg GoWp Server ServerLemmas ServerRun ServerRunLemmas
  Client ClientLemmas ClientLemmas2 ClientLemmas6 ClientRun ClientRunLemmas ClientRunText ClientRunSim ClientRunSim2 ClientRunSim3 ClientRunSim4 ClientRunSim5 ClientRank ClientRank2 NetRun NetClient.
From Coq Require String Ascii.
Local Opaque NumTags all_tags.

(** * The way to the next place *)
Section Going.
Context (RN : N) (opt : oserr + (value * value * value * N)).
Notation M := (memory nworld).
Notation P := protocol_program.
Notation leads := (leads RN opt).
Notation lstep := (lstep RN opt).
Definition going (I : M -> Prop) (Q : res -> Prop) (Z : machine -> Prop) (m : machine) : Prop :=
  Q (step P m) \/ forall s l m' s', I s -> lstep m s l m' s' -> l = LTau /\ s' = s /\ leads I m' Q /\ Z m'.
Lemma leads_going I Q (Z : machine -> Prop) : (forall m, leads I m Q -> going I Q Z m -> Z m) -> forall m, leads I m Q -> Z m.
Proof.
  intros K m H. induction H as [m Q H|m Q m1 E H IH|m Q r m1 f E Hh Ha H IH]; [|specialize (IH K)|specialize (fun s Hs => IH s Hs K)].
  - apply K; [apply ld_here, H|left; exact H].
  - apply K; [eapply ld_quiet; eassumption|]. right. intros s l m' s' Hs St. destruct St; try (rewrite H0 in E; discriminate E). rewrite E in H0. inversion H0; subst. auto.
  - apply K; [eapply ld_ask; eassumption|]. right. intros s l m' s' Hs St. destruct St; rewrite E in H0; try (inversion H0; subst; discriminate).
    inversion H0; subst. rewrite (Ha s Hs) in H1. inversion H1; subst. rewrite hidden_event by assumption. auto.
Qed.
Lemma three_leads I1 Q1 I2 Q2 I3 Q3 (Z : machine -> machine -> machine -> Prop) :
  (forall a b c, leads I1 a Q1 -> leads I2 b Q2 -> leads I3 c Q3 -> going I1 Q1 (fun a' => Z a' b c) a -> going I2 Q2 (fun b' => Z a b' c) b -> going I3 Q3 (fun c' => Z a b c') c -> Z a b c) ->
  forall a b c, leads I1 a Q1 -> leads I2 b Q2 -> leads I3 c Q3 -> Z a b c.
Proof.
  intros K a b c Ha. revert b c. pattern a. revert a Ha. apply leads_going. intros a Ha Ga b c Hb. revert c. pattern b. revert b Hb. apply leads_going. intros b Hb Gb c Hc. pattern c. revert c Hc.
  apply leads_going. intros c Hc Gc. apply K; try assumption.
  - destruct Ga as [Ga|Ga]; [left; exact Ga|right]. intros s l m' s' Hs St. destruct (Ga s l m' s' Hs St) as (X1 & X2 & X3 & X4). auto.
  - destruct Gb as [Gb|Gb]; [left; exact Gb|right]. intros s l m' s' Hs St. destruct (Gb s l m' s' Hs St) as (X1 & X2 & X3 & X4). auto.
Qed.
Lemma lstep_sent m s l m' s' : lstep m s l m' s' -> sent l = [] \/ exists o b m1, step P m = Ask (RExt (str "io.WriteCloser.Write") [o; VBytes b]) m1.
Proof.
  intros St. destruct St; try (left; reflexivity); [|right; eauto]. left. unfold event. destruct r; try reflexivity.
  destruct (beq f (str "io.Copy")); [|destruct (beq f (str "close")); reflexivity].
  destruct args as [|[] args]; try reflexivity. destruct p; try reflexivity. destruct vs as [|v [|[] [|]]]; try reflexivity. destruct (cells s' a) as [[]|]; reflexivity.
Qed.
Lemma lstep_label m s l m' s' : lstep m s l m' s' -> (l <> LEof /\ l <> LFatal) \/ exists args m1, step P m = Ask (RExt (str "close") args) m1.
Proof.
  intros St. destruct St; try (left; split; discriminate). unfold event. destruct r; try (left; split; discriminate).
  destruct (beq f (str "io.Copy")) eqn:E1.
  - destruct args as [|[] args]; try (left; split; discriminate). destruct p; try (left; split; discriminate). destruct vs as [|v [|[] [|]]]; try (left; split; discriminate). destruct (cells s' a) as [[]|]; left; split; discriminate.
  - destruct (beq f (str "close")) eqn:E2; [|left; split; discriminate]. apply beq_eq in E2. subst f. right. eauto.
Qed.
Lemma ldie_label m s l : ldie RN opt m s l -> (l <> LEof /\ l <> LFatal) \/ exists args m1, step P m = Ask (RExt (str "log.Fatalf") args) m1.
Proof. intros St. destruct St; try (left; split; discriminate). right. eauto. Qed.
End Going.
Lemma covered tr hn ls k : csteps tr (init hn) ls k -> exists L, covers L k.
Proof.
  intros H. induction H as [|ls s1 l s2 H (L & IH) St]; [exists []; intros c q E; discriminate E|].
  assert (K : forall c x, (forall q, x <> CSend q) -> callers s2 = upd (callers s1) c x -> exists L, covers L s2).
  { intros c x Hx E. exists L. intros c0 q0 Hq. rewrite E in Hq. unfold upd in Hq. destruct (Nat.eqb c0 c); [destruct (Hx _ Hq)|eapply IH, Hq]. }
  destruct St; try (exists L; exact IH); try (eapply K; [|reflexivity]; intros; discriminate).
  exists (c :: L). intros c0 q0 Hq. cbn [callers] in Hq. unfold upd in Hq. destruct (Nat.eqb_spec c0 c) as [->|Hn]; [left; reflexivity|right; eapply IH, Hq].
Qed.

Section Steps.
Context (RN : N) (opt : oserr + (value * value * value * N)) (C tg fc fs wn rn tn msz : N) (tr hn : bool) (cc : Prop).
Notation M := (memory nworld).
Notation P := protocol_program.
Notation leads := (leads RN opt).
Notation lstep := (lstep RN opt).
Notation Base := (base RN C tg fc fs wn rn tn msz tr hn).
Notation memory_as := (memory_as RN C tg fc fs wn rn tn msz tr hn).
Notation io_q := (io_q RN opt C tg fc fs wn rn tn msz tr hn).
Notation snd_q := (snd_q RN opt C tg fc fs wn rn tn msz tr hn).
Notation rd_q := (rd_q RN opt C tg fc fs wn rn tn msz tr hn).
Notation io_r := (io_r RN opt C tg fc fs wn rn tn msz tr hn).
Notation snds_r := (snds_r RN opt C tg fc fs wn rn tn msz tr hn).
Notation rd_r := (rd_r RN opt C tg fc fs wn rn tn msz tr hn).
Notation good_q := (good_q RN opt C tg fc fs wn rn tn msz tr hn cc).
Notation after_q := (after_q RN opt C tg fc fs wn rn tn msz tr hn cc).
Notation calm := (calm C tg fc fs wn rn tn msz tr hn).
Notation io_ph := (io_ph RN opt C tg fc fs wn rn tn msz tr hn).
Notation snd_ph := (snd_ph RN opt C tg fc fs wn rn tn msz tr hn).

(** What is written costs something. *)
Definition after_w (L : list nat) (k : cst) (s : M) (f : nat) (l : lbl) (g : gstate) : Prop :=
  exists ls k' f' L', csteps tr k ls k' /\ crashed k' = false /\ good_q f' (g_mem g) (g_users g) (g_threads g) k' /\ covers L' k' /\
    lt3 (cost L' k') (pend (g_mem g)) f' (cost L k) (pend s) f /\ (sent l = [] \/ (cost L' k' < cost L k)%nat).
Lemma after_sent L k s f l s' us ths d : sent l = [] -> after_q L k s f s' us ths -> after_w L k s f l (mkG ths s' us d).
Proof. intros Hl (ls & k' & f' & L' & H1 & H2 & H3 & H4 & H5). exists ls, k', f', L'. cbn [g_mem g_users g_threads]. auto 10. Qed.
Lemma io_writes adr rch cl f I Q0 o v m x b m1 : io_q adr rch cl f I Q0 o v -> Q0 (step P m) -> step P m = Ask (RExt (str "io.WriteCloser.Write") [x; VBytes b]) m1 -> False.
Proof.
  intros H Q E. rewrite E in Q. destruct H; try (destruct Q as (m2 & X & _); discriminate X); try (destruct Q as [X|(g & X)]; discriminate X).
  unfold at_have in Q. destruct (doomed tr b0); [destruct Q as [X|(g & X)]; discriminate|]. destruct Q as (m2 & X & _). discriminate.
Qed.
Lemma rd_writes f I Q0 v m x b m1 : rd_q f I Q0 v -> Q0 (step P m) -> step P m = Ask (RExt (str "io.WriteCloser.Write") [x; VBytes b]) m1 -> False.
Proof.
  intros H Q E. rewrite E in Q. destruct H; try (destruct Q as (m2 & X & _); discriminate X); try (destruct Q as (m2 & X); discriminate X).
  destruct Q as (m2 & (n & X & _) & _). discriminate X.
Qed.
Lemma io_forget adr rch s cl f m o v : io_r adr rch s cl f m o v -> io_ph adr rch s cl m o v.
Proof. intros (I & Q & H & K). destruct H; econstructor; eassumption. Qed.
Lemma snd_forget adr rch s f I Q m B x : snd_q adr rch B f I Q x -> on RN opt I m Q s -> snd_ph adr rch s m B x.
Proof. intros H K. destruct H; econstructor; eassumption. Qed.
Lemma rd_asks f I Q x s m r m1 : rd_q f I Q x -> I s -> leads I m Q -> step P m = Ask r m1 -> channel_request r = true ->
  f = 29%nat /\ exists a p, r = RSend (v_chan fs) (VPtr (str "RPCReply") a []) /\ x = RHave p /\ hn = true /\ (7 <= List.length p)%nat /\ cells s a = Some (v_reply p) /\
    Base s /\ forall Q, leads Base (net_loop C fs rn) Q -> leads Base (resume m1 []) Q.
Proof.
  intros H HI HL E Hr. assert (Hh : hidden r = false) by (destruct r; try discriminate; reflexivity).
  pose proof (ask_leads _ _ _ _ _ _ _ HL E Hh) as K. rewrite E in K.
  destruct H; try (destruct K as (m2 & X & _); inversion X; subst; discriminate); try (destruct K as (m2 & X); discriminate).
  - destruct K as (m2 & (n & X & _) & _). inversion X; subst. discriminate.
  - destruct K as (m2 & X & K). inversion X; subst. destruct HI as [Hb Ea]. split; [reflexivity|]. exists a, p. repeat (split; [first [reflexivity|assumption]|]). exact K.
Qed.

Context (k : cst) (HI : Inv k) (Hc : crashed k = false) (L : list nat) (HL : covers L k) (adr rch : nat -> N) (s : M) (us : nat -> user) (Hm : memory_as adr rch s us k).
Context (o : option N) (f1 f2 f3 : nat) (I1 I2 I3 : M -> Prop) (Q1 Q2 Q3 : res -> Prop).
Context (D1 : io_q adr rch (closed k) f1 I1 Q1 o (rcv k)) (D2 : rd_q f2 I2 Q2 (rdr k)) (Hca : cc -> calm s f2 f3) (H1 : I1 s) (H2 : I2 s) (H3 : I3 s).
Definition third (ms : list machine) (m : machine) : Prop :=
  (o = None /\ ms = [] /\ snd_ k = SIdle /\ f3 = 0%nat) \/ exists B, o = Some B /\ ms = [m] /\ snd_q adr rch B f3 I3 Q3 (snd_ k).
Context (mi mn m3 : machine) (ms : list machine) (D3 : third ms m3) (A1 : leads I1 mi Q1) (A2 : leads I2 mn Q2) (A3 : leads I3 m3 Q3).
Context (Z1 Z2 Z3 : machine -> Prop) (G1 : going RN opt I1 Q1 Z1 mi) (G2 : going RN opt I2 Q2 Z2 mn) (G3 : going RN opt I3 Q3 Z3 m3).
Notation f := (f1 + f2 + f3)%nat.
Definition nearer (g : gstate) : Prop :=
  (exists m, g = mkG (m :: mn :: ms) s us false /\ leads I1 m Q1 /\ Z1 m) \/ (exists m, g = mkG (mi :: m :: ms) s us false /\ leads I2 m Q2 /\ Z2 m) \/
  (exists m, g = mkG (mi :: mn :: [m]) s us false /\ third [m] m /\ leads I3 m Q3 /\ Z3 m).
Lemma R1 : io_r adr rch s (closed k) f1 mi o (rcv k). Proof. eapply io_at; eassumption. Qed.
Lemma R2 : rd_r s f2 mn (rdr k). Proof. eapply rd_at; eassumption. Qed.
Lemma R3 : snds_r adr rch s f3 ms o (snd_ k).
Proof. destruct D3 as [(-> & -> & -> & ->)|(B & -> & -> & D)]; [cbn; auto|]. eapply snd_at; eassumption. Qed.
Lemma which i m : nth_error (mi :: mn :: ms) i = Some m -> (i = 0%nat /\ m = mi) \/ (i = 1%nat /\ m = mn) \/ (i = 2%nat /\ m = m3 /\ exists B, o = Some B /\ ms = [m3] /\ snd_q adr rch B f3 I3 Q3 (snd_ k)).
Proof.
  intros E. destruct i as [|[|i]]; cbn in E; [inversion E; auto|inversion E; auto|]. right; right. destruct D3 as [(_ & -> & _)|(B & X & -> & D)]; [destruct i; discriminate|].
  destruct i as [|i]; cbn in E; [inversion E; subst; eauto 8|destruct i; discriminate].
Qed.
Lemma snd_asks B r m1 : snd_q adr rch B f3 I3 Q3 (snd_ k) -> step P m3 = Ask r m1 -> channel_request r = true -> r = RRecv (v_chan fc) \/ r = RRecv (v_chan tg).
Proof. intros D. apply (snd_requests RN opt C tg fc fs wn rn tn msz tr hn adr rch s m3 B (snd_ k) r m1). eapply snd_forget; [exact D|split; assumption]. Qed.
Lemma io_none : o = None -> (12 <= f1)%nat.
Proof. intros E. destruct D1; try discriminate E; lia. Qed.
Lemma io_deliver b t c : rcv k = VDeliver b t c -> f1 = 3%nat.
Proof. intros E. destruct D1; try discriminate E; reflexivity. Qed.

Lemma rank_one i m l m' s' : nth_error (mi :: mn :: ms) i = Some m -> lstep m s l m' s' -> (cc -> nth_error (put_nth i m' (mi :: mn :: ms)) 1 <> Some mn -> fed mn s) ->
  (cc -> forall x b m1 z e, step P m = Ask (RExt (str "io.WriteCloser.Write") [x; VBytes b]) m1 -> m' <> resume m1 [VI 64 z; VErr e]) ->
  let g := mkG (put_nth i m' (mi :: mn :: ms)) s' us false in after_w L k s f l g \/ l = LTau /\ nearer g.
Proof.
  intros Ei St Hfe Hwr g. unfold g. destruct (which _ _ Ei) as [(-> & ->)|[(-> & ->)|(-> & -> & B & Eo & Ems & D)]]; cbn [put_nth].
  - destruct G1 as [Q|G].
    + left. apply after_sent; [|eapply rank_io; try eassumption; [exact R2|exact R3]]. destruct (lstep_sent _ _ _ _ _ _ _ St) as [X|(x & b & m1 & X)]; [exact X|]. destruct (io_writes _ _ _ _ _ _ _ _ _ _ _ _ D1 Q X).
    + right. destruct (G _ _ _ _ H1 St) as (-> & -> & X & Y). split; [reflexivity|]. left. eauto.
  - destruct G2 as [Q|G].
    + left. apply after_sent; [|eapply rank_rd; try eassumption; [exact R1|exact R3|intros X Hn; apply Hfe; [exact X|]; cbn [put_nth nth_error]; congruence]]. destruct (lstep_sent _ _ _ _ _ _ _ St) as [X|(x & b & m1 & X)]; [exact X|]. destruct (rd_writes _ _ _ _ _ _ _ _ D2 Q X).
    + right. destruct (G _ _ _ _ H2 St) as (-> & -> & X & Y). split; [reflexivity|]. right; left. eauto.
  - rewrite Ems in *. cbn [put_nth]. destruct G3 as [Q|G].
    + left. pose proof R1 as X1. rewrite Eo in X1. destruct (lstep_sent _ _ _ _ _ _ _ St) as [X|(x & b & m1 & X)].
      * apply after_sent; [exact X|]. eapply rank_snd; try eassumption. exact R2.
      * pose proof (rank_snd RN opt C tg fc fs wn rn tn msz tr hn cc adr rch s us k L mi mn m3 B f1 f2 f3 I3 Q3 l m' s' HI Hc HL Hm D H3 Q X1 R2 Hca Hwr St) as Aq.
        remember (snd_ k) as y eqn:Ey. destruct D as [|c q Hq|c t q Hq|c t q Hq|c t q|c t q|c t q|c t q]; rewrite X in Q; try (destruct Q as (m2 & Y & _); discriminate Y); [|destruct Q as (vs & m2 & Y); inversion Y; subst; discriminate].
        destruct Q as (m2 & Y & K1 & K2). destruct (lstep_write _ _ _ _ _ _ _ _ _ _ St X) as (-> & [(-> & z & ->)|(-> & z & e & ->)]); [|apply after_sent; [reflexivity|exact Aq]].
        inversion Y; subst x b m2. pose proof (cs_write tr k c t q Hc (eq_sym Ey)) as Cs. match type of Cs with cstep _ _ _ ?k1 => set (k' := k1) in * end.
        assert (Hlt : (cost L k' < cost L k)%nat) by (unfold cost; cbn [queue snd_ k']; rewrite <- Ey; cbn [wsnd]; lia).
        eexists _, k', _, L. split; [apply csteps_one, Cs|]. split; [reflexivity|]. split; [|split; [exact HL|split; [left; exact Hlt|right; exact Hlt]]].
        exists adr, rch, mi, mn. eexists. exists (Some B), f1, f2, 0%nat. cbn [g_mem g_users g_threads]. split; [apply (ma_ext _ _ _ _ _ _ _ _ _ _ _ _ _ _ _ _ _ Hm); reflexivity|].
        split; [reflexivity|]. split; [exact X1|]. split; [exact R2|]. split; [|split; [reflexivity|intros X2; destruct (Hca X2) as (Y1 & Y2 & _); split; [exact Y1|split; [exact Y2|split; lia]]]].
        eapply snd_at; [apply sq_idle|exact (proj1 H3)|apply K1, snd_loop_leads].
    + right. destruct (G _ _ _ _ H3 St) as (-> & -> & X & Y). split; [reflexivity|]. right; right. exists m'. split; [reflexivity|]. split; [right; exists B; auto|auto].
Qed.
Lemma rank_step l g' : tstep RN opt C (mkG (mi :: mn :: ms) s us false) l g' -> own l -> (cc -> nth_error (g_threads g') 1 <> Some mn -> fed mn s) ->
  (cc -> forall i m x b m1 z e, nth_error (mi :: mn :: ms) i = Some m -> step P m = Ask (RExt (str "io.WriteCloser.Write") [x; VBytes b]) m1 ->
    g_threads g' <> put_nth i (resume m1 [VI 64 z; VErr e]) (mi :: mn :: ms)) ->
  g_dead g' = true \/ (g_dead g' = false /\ after_w L k s f l g') \/ (g_dead g' = false /\ l = LTau /\ nearer g').
Proof.
  intros St Ho Hfe Hnf. remember (mkG (mi :: mn :: ms) s us false) as g eqn:Eg.
  destruct St as [i m l m' s' D Ei St|i m l D Ei St|i m ff vs m' D Ei Es|i j m1 m2 kk kk' n v m1' m2' c D Hij E1 E2 Es Er Ec Ecap Ecl|c q D Eu Hq s0 w|c q a n kk ff b D Eu Ef Ech Hroom Ecl|i m kk n r m' c q b D Ei Es Ech Ecap Ecl Eu|kk n b t l D Ef Ech Eb|n s' D Ea];
    subst g; cbn [g_threads g_mem g_users g_dead] in *; try contradiction Ho; try (left; reflexivity); right.
  - (* one goroutine *) destruct (rank_one i m l m' s' Ei St Hfe (fun X x b m1 z e Y Z => Hnf X i m x b m1 z e Ei Y (f_equal (fun q => put_nth i q (mi :: mn :: ms)) Z))) as [X|[X Y]]; [left|right]; auto.
  - (* go *) left. split; [reflexivity|]. destruct (which _ _ Ei) as [(-> & ->)|[(-> & ->)|(-> & -> & B & Eo & Ems & Dq)]].
    + destruct (io_go _ _ _ _ _ _ _ _ _ _ _ _ _ _ _ _ _ _ _ _ _ _ (io_forget _ _ _ _ _ _ _ _ R1) Es) as (Eo & Ev & B & -> & -> & Hbx & HQ). pose proof (io_none Eo) as Hf.
      destruct D3 as [(_ & Ems & Esn & Ef3)|(B' & X & _)]; [|congruence]. rewrite Ems. cbn [put_nth app]. apply after_sent; [reflexivity|].
      eapply none with (o := Some B) (f1 := 1%nat) (f2 := f2) (f3 := 0%nat); [exact Hc|exact HL|exact Hm| |exact R2| |right; split; [reflexivity|lia]|intros X; destruct (Hca X) as (Y1 & Y2 & Y3 & Y4); split; [exact Y1|split; [lia|split; lia]]].
      * rewrite Ev. eapply io_at; [apply iq_wait|exact Hbx|apply HQ, io_loop_leads].
      * rewrite Esn. eapply snd_at; [apply sq_idle|exact Hbx|]. apply snd_start_leads, snd_loop_leads.
    + destruct (rd_asks _ _ _ _ _ _ _ _ D2 H2 A2 Es eq_refl) as (_ & a & p & X & _). discriminate.
    + destruct (snd_asks _ _ _ Dq Es eq_refl) as [X|X]; discriminate.
  - (* readNetPackets and IO *) left. split; [reflexivity|].
    pose proof (m_tags _ _ _ _ _ _ _ _ _ _ _ _ _ _ _ _ Hm) as Mt. pose proof (m_fc _ _ _ _ _ _ _ _ _ _ _ _ _ _ _ _ Hm) as Mf.
    assert (Ntg : n <> tg). { intros ->. rewrite Mt in Ec. inversion Ec as [X]. rewrite <- X in Ecap. exact (numtags_pos' Ecap). }
    assert (Nfc : n <> fc). { intros ->. rewrite Mf in Ec. inversion Ec as [X]. rewrite <- X in Ecap. exact (numtags_pos' Ecap). }
    destruct (which _ _ E2) as [(-> & ->)|[(-> & ->)|(-> & -> & B & Eo & Ems & Dq)]].
    2: { destruct (rd_asks _ _ _ _ _ _ _ _ D2 H2 A2 Er eq_refl) as (_ & a & p & X & _). discriminate. }
    2: { destruct (snd_asks _ _ _ Dq Er eq_refl) as [X|X]; inversion X; contradiction. }
    destruct (which _ _ E1) as [(-> & ->)|[(-> & ->)|(-> & -> & B & Eo & Ems & Dq)]].
    + contradiction.
    + destruct (rd_asks _ _ _ _ _ _ _ _ D2 H2 A2 Es eq_refl) as (Ef2 & a & p & X & Ex & Eh & Hp & Ecell & Hb & HQ). inversion X; subst kk n v. clear X.
      destruct (io_receives _ _ _ _ _ _ _ _ _ _ _ _ _ _ _ _ _ _ _ _ _ _ (io_forget _ _ _ _ _ _ _ _ R1) Er) as (B & Eo & Ev & _ & Hbx & HQ2). cbn [put_nth]. apply after_sent; [reflexivity|].
      pose proof (cs_pass tr k p Hc Ex Ev) as Cs. match type of Cs with cstep _ _ _ ?k1 => set (k' := k1) in * end. pose proof R3 as X3. rewrite Eo in X3.
      eapply one with (o := Some B) (f1 := 4%nat) (f2 := 20%nat) (f3 := f3); [exact Cs|reflexivity|reflexivity|exact HL| | | |exact X3|apply lt3_rank; lia|intros X; destruct (Hca X) as (Y1 & Y2 & Y3 & Y4); split; [exact Y1|split; [lia|split; lia]]].
      * apply (ma_ext _ _ _ _ _ _ _ _ _ _ _ _ _ _ _ _ _ Hm); try reflexivity. unfold closed. cbn [rdr k']. rewrite Ex. reflexivity.
      * eapply io_at; [apply iq_have with (a := a) (b := p)|split; assumption|apply HQ2, Hp].
      * eapply rd_at; [apply rq_load, Eh|exact Hb|apply HQ, net_loop_leads, Eh].
    + destruct (snd_asks _ _ _ Dq Es eq_refl) as [X|X]; discriminate.
  - (* FromClient *) left. split; [reflexivity|].
    destruct (m_client _ _ _ _ _ _ _ _ _ _ _ _ _ _ _ _ Hm) as (Lr & dd & Ecl' & El & Hl). unfold field in Ef. rewrite Ecl' in Ef. cbn in Ef. inversion Ef; subst kk ff. clear Ef.
    pose proof (m_fc _ _ _ _ _ _ _ _ _ _ _ _ _ _ _ _ Hm) as Mf. rewrite Mf in Ech. inversion Ech; subst b. clear Ech. cbn [ch_buf ch_cap] in *.
    pose proof (m_user _ _ _ _ _ _ _ _ _ _ _ _ _ _ _ _ Hm c) as Mu. rewrite Eu in Mu.
    assert (Hi : callers k c = CSend q /\ a = adr c /\ n = rch c) by (destruct (callers k c); cbn in Mu; inversion Mu; auto). destruct Hi as (Hi & -> & ->).
    assert (Hlen : (List.length (queue k) < NumTags)%nat) by (unfold blen in Hroom; rewrite map_length in Hroom; lia).
    pose proof (cs_enqueue tr k c q Hc Hi Hlen) as Cs. match type of Cs with cstep _ _ _ ?k1 => set (k' := k1) in * end.
    apply after_sent; [reflexivity|].
    match goal with |- after_q _ _ _ _ ?s1 ?u1 _ => assert (Hm' : memory_as adr rch s1 u1 k') by (apply (ma_enqueue _ _ _ _ _ _ _ _ _ _ _ _ _ _ _ k); auto) end.
    pose proof (ma_base _ _ _ _ _ _ _ _ _ _ _ _ _ _ _ _ Hm') as Hb'.
    eapply did with (L' := remove Nat.eq_dec c L) (f1 := f1) (f2 := f2) (f3 := f3); [apply csteps_one, Cs|reflexivity| |exact Hm'| | | | |intros X; destruct (Hca X) as (Y1 & Y2 & Y3 & Y4); split; [exact Y1|split; [lia|split; lia]]].
    + intros c0 q0 Hq. cbn [callers k'] in Hq. unfold upd in Hq. destruct (Nat.eqb_spec c0 c) as [->|Hn]; [discriminate Hq|]. apply in_in_remove; [exact Hn|eapply HL, Hq].
    + apply io_rkeep with (s := s) (cl := closed k); [exact Hb'|apply keep_same; reflexivity|apply keep_keep_calls, keep_same; reflexivity|intros X; exact X|exact R1].
    + apply rd_rkeep with (s := s); [exact Hb'|apply keep_same; reflexivity|apply keep_same; reflexivity|exact R2].
    + apply snds_rkeep with (s := s); [exact Hb'|apply keep_same; reflexivity|apply keep_same; reflexivity|exact R3].
    + apply lt3_cost. pose proof (remove_length_lt Nat.eq_dec L c (HL _ _ Hi)) as X. unfold cost. cbn [queue snd_ k']. rewrite app_length. cbn [List.length]. lia.
  - (* a reply *) left. split; [reflexivity|].
    destruct (which _ _ Ei) as [(-> & ->)|[(-> & ->)|(-> & -> & B & Eo & Ems & Dq)]].
    2: { destruct (rd_asks _ _ _ _ _ _ _ _ D2 H2 A2 Es eq_refl) as (_ & a & p & X & _). discriminate. }
    2: { destruct (snd_asks _ _ _ Dq Es eq_refl) as [X|X]; discriminate. }
    destruct (io_sends _ _ _ _ _ _ _ _ _ _ _ _ _ _ _ _ _ _ _ _ _ _ _ (io_forget _ _ _ _ _ _ _ _ R1) Es) as [(B & a & b' & t & c' & Eo & Ev & -> & X & Hbo & HQ)|(t & _ & _ & X)]; [|discriminate].
    inversion X; subst b'. clear X. pose proof (m_user _ _ _ _ _ _ _ _ _ _ _ _ _ _ _ _ Hm c) as Mu. rewrite Eu in Mu.
    assert (Hi : callers k c = CWait q /\ rch c' = rch c) by (destruct (callers k c); cbn in Mu; inversion Mu; auto). destruct Hi as (Hi & Erc).
    destruct (i_deliver_t k HI _ _ _ Ev) as (_ & q' & Hq').
    assert (c' = c). { apply (m_inj _ _ _ _ _ _ _ _ _ _ _ _ _ _ _ _ Hm); [destruct Hq' as [Hq'|(r' & Hq')]; rewrite Hq'; discriminate|rewrite Hi; discriminate|auto]. }
    subst c'. cbn [put_nth]. apply after_sent; [reflexivity|]. pose proof (io_deliver _ _ _ Ev) as Ef1.
    pose proof (cs_deliver tr k r t c q Hc Ev Hi) as Cs. match type of Cs with cstep _ _ _ ?k1 => set (k' := k1) in * end. pose proof R3 as X3. rewrite Eo in X3.
    eapply did with (L' := L) (o := Some B) (f1 := 2%nat) (f2 := f2) (f3 := f3); [apply csteps_one, Cs|reflexivity| |apply (ma_done _ _ _ _ _ _ _ _ _ _ _ _ _ _ _ k _ c q r Hm Hi); reflexivity| |exact R2|exact X3|apply lt3_rank; lia|intros X; destruct (Hca X) as (Y1 & Y2 & Y3 & Y4); split; [exact Y1|split; [lia|split; lia]]].
    + intros c0 q0 Hq. cbn [callers k'] in Hq. unfold upd in Hq. destruct (Nat.eqb_spec c0 c) as [->|Hn]; [discriminate Hq|]. eapply HL, Hq.
    + eapply io_at; [apply iq_ret|exact (proj1 (proj1 Hbo))|exact HQ].
Qed.
(** As long as it has not given up, it does not close FromServer and does not leave with Fatalf. *)
Lemma calm_label l g' : calm s f2 f3 -> tstep RN opt C (mkG (mi :: mn :: ms) s us false) l g' -> l <> LEof /\ l <> LFatal.
Proof.
  intros (_ & Hf2 & Hf3 & _) St. remember (mkG (mi :: mn :: ms) s us false) as g eqn:Eg.
  destruct St as [i m l m' s' D Ei St|i m l D Ei St|i m ff vs m' D Ei Es|i j m1 m2 kk kk' n v m1' m2' c D Hij E1 E2 Es Er Ec Ecap Ecl|c q D Eu Hq s0 w|c q a n kk ff b D Eu Ef Ech Hroom Ecl|i m kk n r m' c q b D Ei Es Ech Ecap Ecl Eu|kk n b t l D Ef Ech Eb|n s' D Ea];
    try (split; discriminate); subst g; cbn [g_threads g_mem g_users g_dead] in *.
  - destruct (lstep_label _ _ _ _ _ _ _ St) as [X|(args & m1 & X)]; [exact X|exfalso].
    destruct (which _ _ Ei) as [(-> & ->)|[(-> & ->)|(-> & -> & B & Eo & Ems & Dq)]].
    + pose proof (ask_leads _ _ _ _ _ _ _ A1 X eq_refl) as K. rewrite X in K. destruct D1; try (destruct K as (m2 & Y & _); discriminate Y); try (destruct K as [Y|(g & Y)]; discriminate Y).
      unfold at_have in K. destruct (doomed tr b); [destruct K as [Y|(g & Y)]; discriminate|]. destruct K as (m2 & Y & _). discriminate.
    + pose proof (ask_leads _ _ _ _ _ _ _ A2 X eq_refl) as K. rewrite X in K. destruct D2; try lia; try (destruct K as (m2 & Y & _); discriminate Y); try (destruct K as (m2 & Y); discriminate Y).
      destruct K as (m2 & (n & Y & _) & _). discriminate Y.
    + pose proof (ask_leads _ _ _ _ _ _ _ A3 X eq_refl) as K. rewrite X in K. destruct Dq; try (destruct K as (m2 & Y & _); discriminate Y). destruct K as (vs & m2 & Y). discriminate Y.
  - destruct (ldie_label _ _ _ _ _ St) as [X|(args & m1 & X)]; [exact X|exfalso].
    destruct (which _ _ Ei) as [(-> & ->)|[(-> & ->)|(-> & -> & B & Eo & Ems & Dq)]].
    + pose proof (ask_leads _ _ _ _ _ _ _ A1 X eq_refl) as K. rewrite X in K. destruct D1; try (destruct K as (m2 & Y & _); discriminate Y); try (destruct K as [Y|(g & Y)]; discriminate Y).
      unfold at_have in K. destruct (doomed tr b); [destruct K as [Y|(g & Y)]; discriminate|]. destruct K as (m2 & Y & _). discriminate.
    + pose proof (ask_leads _ _ _ _ _ _ _ A2 X eq_refl) as K. rewrite X in K. destruct D2; try lia; try (destruct K as (m2 & Y & _); discriminate Y); try (destruct K as (m2 & Y); discriminate Y).
      destruct K as (m2 & (n & Y & _) & _). discriminate Y.
    + pose proof (ask_leads _ _ _ _ _ _ _ A3 X eq_refl) as K. rewrite X in K. destruct Dq; try (destruct K as (m2 & Y & _); discriminate Y). apply Hf3. reflexivity.
Qed.
End Steps.
